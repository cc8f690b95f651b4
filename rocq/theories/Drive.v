(** Iterating: generic facts about an iterator whose Next cuts off what a split function says. *)
From Verif Require Import Base ListFacts Engine SpecIter.

(** What we need to know about one Next. *)
Record next_ok {It : Type} (data : It -> bytes) (pos start : It -> nat) (f : splitfun) (inv : It -> Prop)
       (next : It -> res (bool * It)) (value : It -> res bytes) : Prop := {
  nx_end : forall it, inv it -> length (data it) <= pos it -> next it = Ok (false, it);
  nx_step : forall it, inv it -> pos it < length (data it) -> exists n it',
    0 < n <= length (data it) - pos it
    /\ f (skipn (pos it) (data it)) true = Ok (e_done n (firstn n (skipn (pos it) (data it))))
    /\ next it = Ok (true, it') /\ data it' = data it /\ start it' = pos it /\ pos it' = pos it + n /\ inv it';
  nx_value : forall it, inv it -> value it = slice (data it) (start it) (pos it)
}.

Section Drive.
  Context {It : Type} {data : It -> bytes} {pos start : It -> nat} {f : splitfun} {inv : It -> Prop}
          {next : It -> res (bool * It)} {value : It -> res bytes}.
  Hypothesis NX : next_ok data pos start f inv next value.

  Definition obs_span (it : It) : res (bytes * nat * nat) := v <- value it ;; Ok (v, start it, pos it).

  (** Values of the run = the split function applied again and again. *)
  Lemma collect_chop : forall fuel it fuel', inv it -> length (data it) - pos it < fuel -> length (data it) - pos it < fuel' ->
    exists l, collect next value fuel it = Ok l /\ chop f fuel' (skipn (pos it) (data it)) = Ok l.
  Proof.
    induction fuel as [|fuel IH]; intros it fuel' Hi Hf Hf'; [lia|]. destruct fuel' as [|fuel']; [lia|].
    cbn [collect chop].
    destruct (Nat.lt_ge_cases (pos it) (length (data it))) as [Hlt|Hge].
    - destruct (nx_step _ _ _ _ _ _ _ NX it Hi Hlt) as (n & it' & Hn & Hsp & Hnx & Hd & Hs & Hp & Hi').
      rewrite Hnx. cbn [bind]. rewrite (is_nil_false _ (skipn_nonnil _ _ Hlt)). rewrite Hsp. cbn [bind e_done so_token so_advance].
      rewrite (nx_value _ _ _ _ _ _ _ NX it' Hi'), Hd, Hs, Hp. rewrite slice_ok by lia. cbn [bind].
      replace (pos it + n - pos it) with n by lia. rewrite Nat2Z.id, skipn_skipn.
      destruct (IH it' fuel' Hi') as (l & Hl & Hc); try (rewrite Hd, Hp; lia).
      rewrite Hl. rewrite Hd, Hp in Hc. replace (n + pos it) with (pos it + n) by lia. rewrite Hc. cbn [bind]. eauto.
    - rewrite (nx_end _ _ _ _ _ _ _ NX it Hi Hge). cbn [bind]. rewrite skipn_all2 by lia. cbn [is_nil]. eauto.
  Qed.

  Lemma collect_lossless : forall fuel it, inv it -> length (data it) - pos it < fuel ->
    exists l, collect next value fuel it = Ok l /\ concat l = skipn (pos it) (data it) /\ Forall (fun t => t <> []) l.
  Proof.
    induction fuel as [|fuel IH]; intros it Hi Hf; [lia|]. cbn [collect].
    destruct (Nat.lt_ge_cases (pos it) (length (data it))) as [Hlt|Hge].
    - destruct (nx_step _ _ _ _ _ _ _ NX it Hi Hlt) as (n & it' & Hn & Hsp & Hnx & Hd & Hs & Hp & Hi').
      rewrite Hnx. cbn [bind].
      rewrite (nx_value _ _ _ _ _ _ _ NX it' Hi'), Hd, Hs, Hp. rewrite slice_ok by lia. cbn [bind].
      replace (pos it + n - pos it) with n by lia.
      destruct (IH it' Hi') as (l & Hl & Hc & Hf'); try (rewrite Hd, Hp; lia).
      rewrite Hl. cbn [bind]. eexists; split; [reflexivity|]. split.
      + cbn [concat]. rewrite Hc, Hd, Hp. rewrite <- (firstn_skipn n (skipn (pos it) (data it))) at 2.
        rewrite skipn_skipn. replace (n + pos it) with (pos it + n) by lia. reflexivity.
      + constructor; [|exact Hf']. intros Hx. apply (f_equal (@length N)) in Hx. rewrite firstn_length, skipn_length in Hx.
        simpl in Hx. lia.
    - rewrite (nx_end _ _ _ _ _ _ _ NX it Hi Hge). cbn [bind]. rewrite skipn_all2 by lia. eauto.
  Qed.

  Lemma collect_spans : forall fuel it, inv it -> pos it <= length (data it) -> length (data it) - pos it < fuel ->
    exists l, collect next obs_span fuel it = Ok l /\ spans_from (data it) (pos it) l.
  Proof.
    induction fuel as [|fuel IH]; intros it Hi Hle Hf; [lia|]. cbn [collect].
    destruct (Nat.lt_ge_cases (pos it) (length (data it))) as [Hlt|Hge].
    - destruct (nx_step _ _ _ _ _ _ _ NX it Hi Hlt) as (n & it' & Hn & Hsp & Hnx & Hd & Hs & Hp & Hi').
      rewrite Hnx. cbn [bind]. unfold obs_span at 1.
      rewrite (nx_value _ _ _ _ _ _ _ NX it' Hi'), Hd, Hs, Hp. rewrite slice_ok by lia. cbn [bind].
      destruct (IH it' Hi') as (l & Hl & Hc); try (rewrite Hd, Hp; lia).
      rewrite Hl. cbn [bind]. eexists; split; [reflexivity|]. cbn [spans_from]. rewrite Hd, Hp in Hc.
      repeat split; auto; lia.
    - rewrite (nx_end _ _ _ _ _ _ _ NX it Hi Hge). cbn [bind]. eexists; split; [reflexivity|]. simpl. lia.
  Qed.

  (** A client that ignores the result of Next and calls it k times. *)
  Fixpoint next_times (k : nat) (it : It) : res It :=
    match k with O => Ok it | S k' => ' (_, it') <- next it ;; next_times k' it' end.

  Lemma next_times_ok : forall k it, inv it -> exists it', next_times k it = Ok it' /\ inv it' /\ data it' = data it
    /\ (pos it <= length (data it) -> pos it' <= length (data it')).
  Proof.
    induction k as [|k IH]; intros it Hi; cbn [next_times]; [eauto 6|].
    destruct (Nat.lt_ge_cases (pos it) (length (data it))) as [Hlt|Hge].
    - destruct (nx_step _ _ _ _ _ _ _ NX it Hi Hlt) as (n & it' & Hn & Hsp & Hnx & Hd & Hs & Hp & Hi').
      rewrite Hnx. cbn [bind]. destruct (IH it' Hi') as (it2 & H2 & Hi2 & Hd2 & Hl2).
      exists it2. rewrite Hd in Hd2. repeat split; auto. intros _. apply Hl2. rewrite Hd, Hp. lia.
    - rewrite (nx_end _ _ _ _ _ _ _ NX it Hi Hge). cbn [bind]. apply IH. exact Hi.
  Qed.

  (** Exhausted stays exhausted. *)
  Lemma next_exhausted : forall k it it', inv it -> next it = Ok (false, it') ->
    it' = it /\ next_times k it = Ok it.
  Proof.
    intros k it it' Hi H.
    destruct (Nat.lt_ge_cases (pos it) (length (data it))) as [Hlt|Hge].
    - destruct (nx_step _ _ _ _ _ _ _ NX it Hi Hlt) as (n & it2 & Hn & Hsp & Hnx & _). congruence.
    - rewrite (nx_end _ _ _ _ _ _ _ NX it Hi Hge) in H. injection H as <-. split; [reflexivity|].
      induction k as [|k IH]; [reflexivity|]. cbn [next_times]. rewrite (nx_end _ _ _ _ _ _ _ NX it Hi Hge). exact IH.
  Qed.
End Drive.

(** chop on its own: total and lossless for any split function meeting the contract. *)
Lemma chop_total : forall f, split_ok f -> forall fuel d, length d < fuel ->
  exists l, chop f fuel d = Ok l /\ concat l = d /\ Forall (fun t => t <> []) l.
Proof.
  intros f OK. induction fuel as [|fuel IH]; intros d Hf; [lia|]. cbn [chop].
  destruct d as [|c d0]; [simpl; eauto|]. set (d := c :: d0) in *. change (is_nil d) with false. cbv iota.
  destruct (so_eof f OK d ltac:(discriminate)) as (n & Hn & Hs). rewrite Hs. cbn [bind e_done so_token so_advance].
  rewrite Nat2Z.id. destruct (IH (skipn n d)) as (l & Hl & Hc & Hne). { rewrite skipn_length. lia. }
  rewrite Hl. cbn [bind]. eexists; split; [reflexivity|]. split.
  - cbn [concat]. rewrite Hc. apply firstn_skipn.
  - constructor; [|exact Hne]. intros Hx. apply (f_equal (@length N)) in Hx. rewrite firstn_length in Hx. simpl in Hx. lia.
Qed.

Lemma chop_fuel : forall f, split_ok f -> forall f1 f2 d, length d < f1 -> length d < f2 -> chop f f1 d = chop f f2 d.
Proof.
  intros f OK. induction f1 as [|f1 IH]; intros f2 d H1 H2; [lia|]. destruct f2 as [|f2]; [lia|].
  destruct d as [|c d0]; [reflexivity|]. set (d := c :: d0) in *. cbn [chop]. change (is_nil d) with false. cbv iota.
  destruct (so_eof f OK d ltac:(discriminate)) as (n & Hn & Hs). rewrite Hs. cbn [bind e_done so_token so_advance].
  rewrite Nat2Z.id. rewrite (IH f2); [reflexivity| |]; rewrite skipn_length; lia.
Qed.
