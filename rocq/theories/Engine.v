(** A common shape of the four split functions, used only in proofs: a loop over the remaining bytes that looks
    up the next character, runs the rules, and joins, breaks, or asks for more data. *)
From Verif Require Import Base Trie.

Inductive edec (St : Type) : Type :=
| EJoin (adv : nat) (st : St)     (* pos += adv; continue *)
| EBreak                           (* break *)
| EEnd                             (* pos = len(data); break *)
| EMore.                           (* return 0, nil, nil *)
Arguments EJoin {St} adv st.
Arguments EBreak {St}.
Arguments EEnd {St}.
Arguments EMore {St}.

Record eng := {
  e_St : Type;
  e_lk0 : bytes -> res (N * nat);       (* lookup of the first character *)
  e_lk : bytes -> res (N * nat);        (* lookup in the loop *)
  e_init : N -> e_St;
  e_rules : e_St -> N -> bytes -> nat -> bool -> res (edec e_St)
}.

Definition e_more : split_out := {| so_advance := 0; so_token := None; so_err := None |}.
Definition e_done (pos : nat) (tok : bytes) : split_out :=
  {| so_advance := Z.of_nat pos; so_token := Some tok; so_err := None |}.

Section Engine.
  Variable E : eng.

  (** The loop on the bytes from pos on; the result is relative to pos. *)
  Fixpoint eloop (fuel : nat) (d : bytes) (atEOF : bool) (st : e_St E) : res (option nat) :=
    match fuel with
    | O => OutOfFuel
    | S fuel' =>
      if is_nil d then (if atEOF then Ok (Some 0) else Ok None)
      else
        ' (v, w) <- e_lk E d ;;
        if Nat.eqb w 0 then (if atEOF then Ok (Some (length d)) else Ok None)
        else
          dec <- e_rules E st v d w atEOF ;;
          match dec with
          | EMore => Ok None
          | EBreak => Ok (Some 0)
          | EEnd => Ok (Some (length d))
          | EJoin adv st' =>
            d' <- slice_from d adv ;;
            r <- eloop fuel' d' atEOF st' ;;
            Ok (option_map (fun n => adv + n) r)
          end
    end.

  Definition esplit (fuel : bytes -> nat) (data : bytes) (atEOF : bool) : res split_out :=
    if is_nil data then Ok e_more else
    ' (v, w) <- e_lk0 E data ;;
    if Nat.eqb w 0 then
      if atEOF then Ok (e_done (length data) data) else Ok e_more
    else
      d <- slice_from data w ;;
      r <- eloop (fuel data) d atEOF (e_init E v) ;;
      match r with
      | None => Ok e_more
      | Some n => tok <- slice_to data (w + n) ;; Ok (e_done (w + n) tok)
      end.

  (** What we ask of a lookup: total, width within the data, and stable under appending data. *)
  Definition lk_ok (lk : bytes -> res (N * nat)) : Prop :=
    forall d, d <> [] -> exists v w, lk d = Ok (v, w) /\ w <= length d
      /\ (w <> 0 -> forall t, lk (d ++ t) = Ok (v, w)).

  Variable mu : e_St E -> bytes -> nat.

  (** What we ask of the rules. *)
  Definition rules_ok : Prop :=
    forall st v d w, d <> [] -> e_lk E d = Ok (v, w) -> w <> 0 ->
      (forall atEOF, exists dec, e_rules E st v d w atEOF = Ok dec
        /\ (forall adv st', dec = EJoin adv st' -> adv <= length d /\ mu st' (skipn adv d) < mu st d)
        /\ (dec = EMore -> atEOF = false)
        /\ (dec = EEnd -> atEOF = true))
      /\ (forall dec, e_rules E st v d w false = Ok dec -> dec <> EMore ->
          forall t b, e_rules E st v (d ++ t) w b = Ok dec).

  Hypothesis LK0 : lk_ok (e_lk0 E).
  Hypothesis LK : lk_ok (e_lk E).
  Hypothesis RU : rules_ok.

  Lemma eloop_total : forall fuel d st, mu st d < fuel ->
    (exists n, eloop fuel d true st = Ok (Some n) /\ n <= length d)
    /\ (eloop fuel d false st = Ok None \/ exists n, eloop fuel d false st = Ok (Some n) /\ n <= length d).
  Proof.
    induction fuel as [|fuel IH]; intros d st Hm; [lia|].
    destruct d as [|c d0]. { simpl. split; [exists 0; auto | auto]. }
    set (d := c :: d0) in *. assert (Hd : d <> []) by discriminate.
    destruct (LK d Hd) as (v & w & Hl & Hw & _).
    cbn [eloop]. change (is_nil d) with false. cbv iota. rewrite Hl. cbn [bind].
    destruct (Nat.eqb w 0) eqn:E0. { split; [exists (length d); auto | auto]. }
    apply Nat.eqb_neq in E0.
    destruct (RU st v d w Hd Hl E0) as (T & _).
    split.
    - destruct (T true) as (dec & Hr & Hj & Hmo & He). rewrite Hr. cbn [bind].
      destruct dec as [adv st'| | |]; [|exists 0; split; [reflexivity|lia] | eexists; split; [reflexivity|lia] | specialize (Hmo eq_refl); discriminate].
      destruct (Hj _ _ eq_refl) as (Ha & Hmu). unfold slice_from.
      replace (length d <? adv) with false by (symmetry; apply Nat.ltb_ge; lia). cbn [bind].
      destruct (IH (skipn adv d) st' ltac:(lia)) as ((n & Hn & Hle) & _). rewrite Hn. cbn [bind option_map].
      exists (adv + n). split; [reflexivity|]. rewrite skipn_length in Hle. lia.
    - destruct (T false) as (dec & Hr & Hj & Hmo & He). rewrite Hr. cbn [bind].
      destruct dec as [adv st'| | |]; [|right; exists 0; split; [reflexivity|lia] | specialize (He eq_refl); discriminate | left; reflexivity].
      destruct (Hj _ _ eq_refl) as (Ha & Hmu). unfold slice_from.
      replace (length d <? adv) with false by (symmetry; apply Nat.ltb_ge; lia). cbn [bind].
      destruct (IH (skipn adv d) st' ltac:(lia)) as (_ & [Hn | (n & Hn & Hle)]); rewrite Hn; cbn [bind option_map].
      + left; reflexivity.
      + right. exists (adv + n). split; [reflexivity|]. rewrite skipn_length in Hle. lia.
  Qed.

  Lemma eloop_stable : forall fuel d st n, eloop fuel d false st = Ok (Some n) ->
    forall fuel' t b, mu st (d ++ t) < fuel' -> eloop fuel' (d ++ t) b st = Ok (Some n).
  Proof.
    induction fuel as [|fuel IH]; intros d st n H fuel' t b Hm; [discriminate|].
    destruct d as [|c d0]; [simpl in H; discriminate|].
    set (d := c :: d0) in *. assert (Hd : d <> []) by discriminate.
    destruct (LK d Hd) as (v & w & Hl & Hw & Hst).
    cbn [eloop] in H. change (is_nil d) with false in H. cbv iota in H. rewrite Hl in H. cbn [bind] in H.
    destruct (Nat.eqb w 0) eqn:E0; [discriminate|].
    destruct fuel' as [|fuel']; [lia|]. cbn [eloop]. change (is_nil (d ++ t)) with false. cbv iota.
    apply Nat.eqb_neq in E0.
    rewrite (Hst E0 t). cbn [bind]. rewrite (proj2 (Nat.eqb_neq _ _) E0).
    destruct (RU st v d w Hd Hl E0) as (T & S).
    destruct (T false) as (dec & Hr & Hj & Hmo & He). rewrite Hr in H. cbn [bind] in H.
    assert (Hne : dec <> EMore) by (intros ->; discriminate).
    rewrite (S dec Hr Hne t b). cbn [bind].
    destruct dec as [adv st'| | |]; [| exact H | specialize (He eq_refl); discriminate | congruence].
    destruct (Hj _ _ eq_refl) as (Ha & Hmu). unfold slice_from in H |- *. rewrite app_length.
    replace (length d <? adv) with false in H by (symmetry; apply Nat.ltb_ge; lia). cbn [bind] in H.
    replace (length d + length t <? adv) with false by (symmetry; apply Nat.ltb_ge; lia). cbn [bind].
    rewrite skipn_app. replace (adv - length d) with 0 by lia. cbn [skipn].
    destruct (eloop fuel (skipn adv d) false st') as [r| |] eqn:Er; [|discriminate|discriminate].
    cbn [bind] in H. destruct r as [m|]; [|discriminate]. cbn [option_map] in H. injection H as <-.
    rewrite (IH _ _ _ Er fuel' t b); [reflexivity|].
    assert (Hdt : d ++ t <> []) by discriminate.
    destruct (RU st v (d ++ t) w Hdt (Hst E0 t) E0) as (T2 & _).
    destruct (T2 b) as (dec2 & Hr2 & Hj2 & _). rewrite (S _ Hr Hne t b) in Hr2. injection Hr2 as <-.
    destruct (Hj2 _ _ eq_refl) as (_ & Hmu2).
    rewrite skipn_app in Hmu2. replace (adv - length d) with 0 in Hmu2 by lia. cbn [skipn] in Hmu2. lia.
  Qed.
End Engine.

(** The contract of a split function that the iterators and bufio.Scanner rely on. *)
Record split_ok (f : splitfun) : Prop := {
  so_nil : forall b, f [] b = Ok e_more;
  so_eof : forall d, d <> [] -> exists n, 0 < n <= length d /\ f d true = Ok (e_done n (firstn n d));
  so_stream : forall d, f d false = Ok e_more
     \/ exists n, 0 < n <= length d /\ f d false = Ok (e_done n (firstn n d))
        /\ forall t b, f (d ++ t) b = Ok (e_done n (firstn n d))
}.

Section EngineSplit.
  Variable E : eng.
  Variable mu : e_St E -> bytes -> nat.
  Variable fuel : bytes -> nat.
  Hypothesis LK0 : lk_ok (e_lk0 E).
  Hypothesis LK : lk_ok (e_lk E).
  Hypothesis RU : rules_ok E mu.
  Hypothesis FU : forall data v w, e_lk0 E data = Ok (v, w) -> w <> 0 -> w <= length data ->
    mu (e_init E v) (skipn w data) < fuel data.

  Theorem esplit_ok : split_ok (esplit E fuel).
  Proof.
    split.
    - reflexivity.
    - intros d Hd. destruct (LK0 d Hd) as (v & w & Hl & Hw & _).
      unfold esplit. destruct d as [|c d0]; [congruence|]. set (d := c :: d0) in *. change (is_nil d) with false. cbv iota.
      rewrite Hl. cbn [bind]. destruct (Nat.eqb w 0) eqn:E0.
      { exists (length d). split; [simpl; lia|]. rewrite firstn_all. reflexivity. }
      apply Nat.eqb_neq in E0. unfold slice_from.
      replace (length d <? w) with false by (symmetry; apply Nat.ltb_ge; lia). cbn [bind].
      destruct (eloop_total E mu LK RU (fuel d) (skipn w d) (e_init E v) (FU _ _ _ Hl E0 Hw)) as ((n & Hn & Hle) & _).
      rewrite Hn. cbn [bind]. rewrite skipn_length in Hle. unfold slice_to.
      replace (length d <? w + n) with false by (symmetry; apply Nat.ltb_ge; lia). cbn [bind].
      exists (w + n). split; [lia|reflexivity].
    - intros d. destruct d as [|c d0]; [left; reflexivity|]. set (d := c :: d0) in *.
      assert (Hd : d <> []) by discriminate. destruct (LK0 d Hd) as (v & w & Hl & Hw & Hst).
      unfold esplit. change (is_nil d) with false. cbv iota.
      rewrite Hl. cbn [bind]. destruct (Nat.eqb w 0) eqn:E0; [left; reflexivity|].
      apply Nat.eqb_neq in E0. unfold slice_from.
      replace (length d <? w) with false by (symmetry; apply Nat.ltb_ge; lia). cbn [bind].
      destruct (eloop_total E mu LK RU (fuel d) (skipn w d) (e_init E v) (FU _ _ _ Hl E0 Hw)) as (_ & [Hn | (n & Hn & Hle)]);
        rewrite Hn; cbn [bind]; [left; reflexivity|right].
      rewrite skipn_length in Hle. unfold slice_to.
      replace (length d <? w + n) with false by (symmetry; apply Nat.ltb_ge; lia). cbn [bind].
      exists (w + n). split; [lia|]. split; [reflexivity|]. intros t b.
      change (is_nil (d ++ t)) with false. cbv iota. rewrite (Hst E0 t). cbn [bind].
      rewrite (proj2 (Nat.eqb_neq _ _) E0). rewrite app_length.
      replace (length d + length t <? w) with false by (symmetry; apply Nat.ltb_ge; lia). cbn [bind].
      assert (Hsk : skipn w (d ++ t) = skipn w d ++ t).
      { rewrite skipn_app. replace (w - length d) with 0 by lia. reflexivity. }
      rewrite Hsk. rewrite (eloop_stable E mu LK RU _ _ _ _ Hn (fuel (d ++ t)) t b).
      + cbn [bind].
        replace (length d + length t <? w + n) with false by (symmetry; apply Nat.ltb_ge; lia). cbn [bind].
        rewrite firstn_app. replace (w + n - length d) with 0 by lia. cbn [firstn]. rewrite app_nil_r. reflexivity.
      + rewrite <- Hsk. apply (FU _ _ _ (Hst E0 t) E0). rewrite app_length. lia.
  Qed.
End EngineSplit.

(** Two split functions that agree everywhere satisfy the same contract. *)
Lemma split_ok_ext : forall f g, (forall d b, f d b = g d b) -> split_ok f -> split_ok g.
Proof.
  intros f g H [A B C]. split.
  - intros. rewrite <- H. apply A.
  - intros d Hd. destruct (B d Hd) as (n & Hn & He). exists n. rewrite <- H. auto.
  - intros d. destruct (C d) as [L | (n & Hn & He & Hs)].
    + left. rewrite <- H. exact L.
    + right. exists n. rewrite <- H. split; [auto|]. split; [auto|]. intros. rewrite <- H. auto.
Qed.
