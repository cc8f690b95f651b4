(** Facts about histories of calls, for any iterator whose Next cuts off what a split function says. *)
From Verif Require Import Base ListFacts Engine SpecIter SpecApi Drive.

Record api_ok (A : api) {K : Type} (data : It A -> bytes) (pos start : It A -> nat) (kof : It A -> K -> Prop) (f : K -> splitfun)
  (newK : K) (cfgK : Cfg A -> K -> K) : Prop := {
  ao_next : forall k, next_ok data pos start (f k) (fun it => kof it k) (a_next A) (a_value A);
  ao_start : forall it, a_start A it = start it;
  ao_end : forall it, a_end A it = pos it;
  ao_new : forall d, data (a_new A d) = d /\ pos (a_new A d) = 0 /\ start (a_new A d) = 0 /\ kof (a_new A d) newK;
  ao_reset : forall it k, kof it k -> data (a_reset A it) = data it /\ pos (a_reset A it) = 0 /\ start (a_reset A it) = 0 /\ kof (a_reset A it) k;
  ao_settext : forall it k d, kof it k -> data (a_settext A it d) = d /\ pos (a_settext A it d) = 0 /\ start (a_settext A it d) = 0 /\ kof (a_settext A it d) k;
  ao_config : forall it k c, kof it k -> data (a_config A it c) = data it /\ pos (a_config A it c) = pos it
     /\ start (a_config A it c) = start it /\ kof (a_config A it c) (cfgK c k);
  ao_first : forall it, a_first A it = if Nat.eqb (length (data it)) 0 then Ok (data it, it)
     else ' (_, cp) <- a_next A (a_reset A it) ;; v <- a_value A cp ;; Ok (v, it)
}.

Section ApiFacts.
  Context {A : api} {K : Type} {data : It A -> bytes} {pos start : It A -> nat} {kof : It A -> K -> Prop} {f : K -> splitfun}
    {newK : K} {cfgK : Cfg A -> K -> K}.
  Hypothesis AO : api_ok A data pos start kof f newK cfgK.

  Definition st_ok (it : It A) : Prop := start it <= pos it <= length (data it).

  Lemma first_ok : forall it k, kof it k -> exists v, a_first A it = Ok (v, it)
    /\ (data it = [] -> v = [])
    /\ (data it <> [] -> exists n rest, v = firstn n (data it) /\ 0 < n <= length (data it)
         /\ forall fuel, length (data it) < fuel -> exists rest', tokens A fuel (a_reset A it) = Ok (v :: rest') /\ rest' = rest).
  Proof.
    intros it k Hk. rewrite (ao_first _ _ _ _ _ _ _ _ AO).
    destruct (ao_reset _ _ _ _ _ _ _ _ AO it k Hk) as (Rd & Rp & Rs & Rk).
    destruct (Nat.eqb (length (data it)) 0) eqn:E.
    - apply Nat.eqb_eq in E. exists (data it). split; [reflexivity|]. split; [auto|]. intros H. destruct (data it); [congruence|discriminate].
    - apply Nat.eqb_neq in E. pose proof (ao_next _ _ _ _ _ _ _ _ AO k) as NX.
      destruct (nx_step _ _ _ _ _ _ _ NX (a_reset A it) Rk) as (n & it' & Hn & Hsp & Hnx & Hd & Hs & Hp & Hi').
      { rewrite Rd, Rp. lia. }
      rewrite Hnx. cbn [bind]. rewrite (nx_value _ _ _ _ _ _ _ NX it' Hi'), Hd, Hs, Hp, Rd, Rp.
      rewrite Rd, Rp in Hn. rewrite slice_ok by lia. cbn [bind]. replace (0 + n - 0) with n by lia. cbn [skipn].
      exists (firstn n (data it)). split; [reflexivity|]. split; [intros H; rewrite H in E; simpl in E; lia|].
      intros _.
      assert (Hrest : exists rest, forall fuel, length (data it) < fuel ->
         exists rest', tokens A fuel (a_reset A it) = Ok (firstn n (data it) :: rest') /\ rest' = rest).
      { destruct (collect_chop NX (S (length (data it))) it' (S (length (data it))) Hi') as (l & Hl & Hc); try (rewrite Hd, Hp, Rd, Rp; lia).
        exists l. intros fuel Hf. exists l. split; [|reflexivity]. unfold tokens. destruct fuel as [|fuel]; [lia|]. cbn [collect].
        rewrite Hnx. cbn [bind]. rewrite (nx_value _ _ _ _ _ _ _ NX it' Hi'), Hd, Hs, Hp, Rd, Rp.
        rewrite slice_ok by lia. cbn [bind]. replace (0 + n - 0) with n by lia. cbn [skipn].
        destruct (collect_chop NX fuel it' (S (length (data it))) Hi') as (l2 & Hl2 & Hc2); try (rewrite Hd, Hp, Rd, Rp; lia).
        rewrite Hl2. cbn [bind]. rewrite Hc in Hc2. injection Hc2 as ->. reflexivity. }
      destruct Hrest as (rest & HR). exists n, rest. split; [reflexivity|]. split; [lia|]. exact HR.
  Qed.

  Lemma do_call_ok : forall it k c, kof it k -> st_ok it -> exists it' k', do_call A it c = Ok it' /\ kof it' k' /\ st_ok it'
    /\ data it' = text_after A [c] (data it) /\ k' = match c with CConfig x => cfgK x k | _ => k end.
  Proof.
    intros it k c Hk Hs. unfold st_ok in *. destruct c as [| | d | | x]; cbn [do_call text_after].
    - pose proof (ao_next _ _ _ _ _ _ _ _ AO k) as NX.
      destruct (Nat.lt_ge_cases (pos it) (length (data it))) as [Hlt|Hge].
      + destruct (nx_step _ _ _ _ _ _ _ NX it Hk Hlt) as (n & it' & Hn & Hsp & Hnx & Hd & Hst & Hp & Hi').
        rewrite Hnx. cbn [bind]. exists it', k. repeat split; auto; rewrite ?Hd, ?Hst, ?Hp; lia.
      + rewrite (nx_end _ _ _ _ _ _ _ NX it Hk Hge). cbn [bind]. exists it, k. auto.
    - destruct (ao_reset _ _ _ _ _ _ _ _ AO it k Hk) as (Rd & Rp & Rs & Rk). exists (a_reset A it), k.
      repeat split; auto; rewrite ?Rd, ?Rp, ?Rs; lia.
    - destruct (ao_settext _ _ _ _ _ _ _ _ AO it k d Hk) as (Rd & Rp & Rs & Rk). exists (a_settext A it d), k.
      repeat split; auto; rewrite ?Rd, ?Rp, ?Rs; lia.
    - destruct (first_ok it k Hk) as (v & Hf & _). rewrite Hf. cbn [bind]. exists it, k. auto.
    - destruct (ao_config _ _ _ _ _ _ _ _ AO it k x Hk) as (Rd & Rp & Rs & Rk). exists (a_config A it x), (cfgK x k).
      repeat split; auto; rewrite ?Rd, ?Rp, ?Rs; lia.
  Qed.

  Fixpoint k_after (cs : list (call (Cfg A))) (k : K) : K :=
    match cs with [] => k | CConfig x :: rest => k_after rest (cfgK x k) | _ :: rest => k_after rest k end.

  Lemma history_ok : forall cs it k, kof it k -> st_ok it -> exists it', history A cs it = Ok it' /\ kof it' (k_after cs k) /\ st_ok it'
    /\ data it' = text_after A cs (data it).
  Proof.
    induction cs as [|c cs IH]; intros it k Hk Hs; cbn [history k_after text_after]; [eauto|].
    destruct (do_call_ok it k c Hk Hs) as (it1 & k1 & H1 & Hk1 & Hs1 & Hd1 & He). rewrite H1. cbn [bind].
    destruct (IH it1 k1 Hk1 Hs1) as (it2 & H2 & Hk2 & Hs2 & Hd2). exists it2. split; [exact H2|].
    rewrite Hd1 in Hd2. subst k1. destruct c; cbn [text_after] in Hd2; auto.
  Qed.

  Lemma new_ok : forall d, kof (a_new A d) newK /\ st_ok (a_new A d) /\ data (a_new A d) = d.
  Proof.
    intros d. destruct (ao_new _ _ _ _ _ _ _ _ AO d) as (Nd & Np & Ns & Nk). unfold st_ok. rewrite Nd, Np, Ns. repeat split; auto; lia.
  Qed.

  Lemma history_new : forall cs d, exists it, history A cs (a_new A d) = Ok it /\ kof it (k_after cs newK) /\ st_ok it
    /\ data it = text_after A cs d.
  Proof.
    intros cs d. destruct (new_ok d) as (Nk & Ns & Nd).
    destruct (history_ok cs _ _ Nk Ns) as (it & H1 & H2 & H3 & H4). rewrite Nd in H4. eauto.
  Qed.

  (** C19 *)
  Lemma consistent : forall cs d, exists it, history A cs (a_new A d) = Ok it
    /\ a_start A it <= a_end A it <= length (text_after A cs d)
    /\ a_value A it = Ok (firstn (a_end A it - a_start A it) (skipn (a_start A it) (text_after A cs d))).
  Proof.
    intros cs d. destruct (history_new cs d) as (it & H1 & H2 & H3 & H4). exists it. split; [exact H1|].
    unfold st_ok in H3. rewrite (ao_start _ _ _ _ _ _ _ _ AO), (ao_end _ _ _ _ _ _ _ _ AO), <- H4. split; [exact H3|].
    rewrite (nx_value _ _ _ _ _ _ _ (ao_next _ _ _ _ _ _ _ _ AO _) it H2). apply slice_ok; lia.
  Qed.

  (** C20.  A fresh iterator with the same settings is one on which the same CConfig calls were made. *)
  Lemma k_after_configs : forall cs k, k_after (configs_of A cs) k = k_after cs k.
  Proof. induction cs as [|c cs IH]; intros k; [reflexivity|]. destruct c; cbn [configs_of k_after]; apply IH. Qed.
  Lemma text_after_configs : forall cs d, text_after A (configs_of A cs) d = d.
  Proof. induction cs as [|c cs IH]; intros d; [reflexivity|]. destruct c; cbn [configs_of text_after]; apply IH. Qed.
  Lemma pos_after_configs : forall cs it k, kof it k -> pos it = 0 -> exists it', history A (configs_of A cs) it = Ok it' /\ pos it' = 0
    /\ kof it' (k_after cs k) /\ data it' = data it.
  Proof.
    induction cs as [|c cs IH]; intros it k Hk Hp; [cbn; eauto|]. destruct c as [| | d' | | x]; cbn [configs_of]; try (apply IH; assumption).
    cbn [history do_call bind k_after].
    destruct (ao_config _ _ _ _ _ _ _ _ AO it k x Hk) as (Rd & Rp & Rs & Rk). rewrite <- Rd. apply IH; auto. congruence.
  Qed.

  Lemma collect_eq : forall it1 it2 k fuel1 fuel2, kof it1 k -> kof it2 k -> data it1 = data it2 -> pos it1 = 0 -> pos it2 = 0 ->
    length (data it1) < fuel1 -> length (data it1) < fuel2 -> exists l, tokens A fuel1 it1 = Ok l /\ tokens A fuel2 it2 = Ok l.
  Proof.
    intros it1 it2 k fuel1 fuel2 K1 K2 D P1 P2 F1 F2. pose proof (ao_next _ _ _ _ _ _ _ _ AO k) as NX.
    destruct (collect_chop NX fuel1 it1 (S (length (data it1))) K1) as (l1 & H1 & C1); try lia.
    destruct (collect_chop NX fuel2 it2 (S (length (data it1))) K2) as (l2 & H2 & C2); try (rewrite <- D; lia); try lia.
    rewrite P1 in C1. rewrite P2, <- D in C2. rewrite C1 in C2. injection C2 as <-. exists l1. auto.
  Qed.

  Lemma replay : forall cs d, exists it fresh l, history A cs (a_new A d) = Ok it
    /\ history A (configs_of A cs) (a_new A (text_after A cs d)) = Ok fresh
    /\ forall fuel, length (text_after A cs d) < fuel -> tokens A fuel (a_reset A it) = Ok l /\ tokens A fuel fresh = Ok l.
  Proof.
    intros cs d. destruct (history_new cs d) as (it & H1 & H2 & H3 & H4).
    destruct (new_ok (text_after A cs d)) as (Nk & Ns & Nd).
    destruct (ao_new _ _ _ _ _ _ _ _ AO (text_after A cs d)) as (_ & Np & _).
    destruct (pos_after_configs cs _ _ Nk Np) as (fr & F1 & F2 & F3 & F4).
    destruct (ao_reset _ _ _ _ _ _ _ _ AO it _ H2) as (Rd & Rp & Rs & Rk).
    destruct (collect_eq (a_reset A it) fr _ (S (length (text_after A cs d))) (S (length (text_after A cs d))) Rk F3) as (l & L1 & L2); auto.
    { rewrite Rd, F4, Nd. exact H4. } { rewrite Rd, H4. lia. } { rewrite Rd, H4. lia. }
    exists it, fr, l. split; [exact H1|]. split; [exact F1|]. intros fuel Hf.
    destruct (collect_eq (a_reset A it) fr _ fuel (S (length (text_after A cs d))) Rk F3) as (l' & L1' & L2'); auto.
    { rewrite Rd, F4, Nd. exact H4. } { rewrite Rd, H4. lia. } { rewrite Rd, H4. lia. }
    rewrite L2 in L2'. injection L2' as <-. split; [exact L1'|].
    destruct (collect_eq (a_reset A it) fr _ (S (length (text_after A cs d))) fuel Rk F3) as (l'' & L1'' & L2''); auto.
    { rewrite Rd, F4, Nd. exact H4. } { rewrite Rd, H4. lia. } { rewrite Rd, H4. lia. }
    rewrite L1 in L1''. injection L1'' as <-. exact L2''.
  Qed.

  Lemma settext_fresh : forall cs d x, exists it fresh l, history A cs (a_new A d) = Ok it
    /\ history A (configs_of A cs) (a_new A x) = Ok fresh
    /\ forall fuel, length x < fuel -> tokens A fuel (a_settext A it x) = Ok l /\ tokens A fuel fresh = Ok l.
  Proof.
    intros cs d x. destruct (history_new cs d) as (it & H1 & H2 & H3 & H4).
    destruct (new_ok x) as (Nk & Ns & Nd).
    destruct (ao_new _ _ _ _ _ _ _ _ AO x) as (_ & Np & _).
    destruct (pos_after_configs cs _ _ Nk Np) as (fr & F1 & F2 & F3 & F4).
    destruct (ao_settext _ _ _ _ _ _ _ _ AO it _ x H2) as (Rd & Rp & Rs & Rk).
    assert (HE : forall f1 f2, length x < f1 -> length x < f2 -> exists l, tokens A f1 (a_settext A it x) = Ok l /\ tokens A f2 fr = Ok l).
    { intros. apply (collect_eq _ _ _ _ _ Rk F3); auto; try (rewrite Rd; auto). rewrite F4, Nd. reflexivity. }
    destruct (HE (S (length x)) (S (length x)) ltac:(lia) ltac:(lia)) as (l & L1 & L2).
    exists it, fr, l. split; [exact H1|]. split; [exact F1|]. intros fuel Hf.
    destruct (HE fuel (S (length x)) Hf ltac:(lia)) as (l' & L1' & L2'). rewrite L2 in L2'. injection L2' as <-.
    destruct (HE (S (length x)) fuel ltac:(lia) Hf) as (l'' & L1'' & L2''). rewrite L1 in L1''. injection L1'' as <-. auto.
  Qed.

  (** C21 *)
  Lemma first_anywhere : forall cs d, exists it v, history A cs (a_new A d) = Ok it /\ a_first A it = Ok (v, it)
    /\ (text_after A cs d = [] -> v = [])
    /\ (text_after A cs d <> [] -> exists rest, forall fuel, length (text_after A cs d) < fuel -> tokens A fuel (a_reset A it) = Ok (v :: rest)).
  Proof.
    intros cs d. destruct (history_new cs d) as (it & H1 & H2 & H3 & H4).
    destruct (first_ok it _ H2) as (v & Hf & He & Hn). exists it, v. rewrite <- H4. split; [exact H1|]. split; [exact Hf|]. split; [exact He|].
    intros Hne. destruct (Hn Hne) as (n & rest & _ & _ & HR). exists rest. intros fuel Hfu. destruct (HR fuel Hfu) as (r & Hr & ->). exact Hr.
  Qed.

  (** C22 *)
  Lemma exhausted : forall cs d it it', history A cs (a_new A d) = Ok it -> a_next A it = Ok (false, it') ->
    it' = it /\ forall k, SpecApi.next_times A k it = Ok it /\ a_next A it = Ok (false, it).
  Proof.
    intros cs d it it' Hh Hn. destruct (history_new cs d) as (it0 & H1 & H2 & H3 & H4). rewrite H1 in Hh. injection Hh as ->.
    destruct (next_exhausted (ao_next _ _ _ _ _ _ _ _ AO _) 0 it it' H2 Hn) as (-> & _). split; [reflexivity|].
    intros k. split; [|exact Hn]. induction k as [|k IH]; [reflexivity|]. cbn [SpecApi.next_times]. rewrite Hn. exact IH.
  Qed.

  (** C01-C04 *)
  Lemma spans_from_facts : forall dat l p, spans_from dat p l -> p <= length dat ->
    concat (texts l) = skipn p dat /\ Forall (fun t => t <> []) (texts l) /\ length l <= length dat - p.
  Proof.
    intros dat. induction l as [|[[v s] e] l IH]; intros p H Hp; cbn [spans_from] in H.
    - subst p. rewrite skipn_all2 by lia. simpl. repeat split; auto; lia.
    - destruct H as (-> & He & -> & HS). destruct (IH e HS ltac:(lia)) as (I1 & I2 & I3). cbn [texts map fst concat length].
      split; [|split].
      + fold (texts l). rewrite I1. rewrite <- (firstn_skipn (e - p) (skipn p dat)) at 2. rewrite skipn_skipn. do 2 f_equal. lia.
      + constructor; [|exact I2]. intros Hx. apply (f_equal (@length N)) in Hx. rewrite firstn_length, skipn_length in Hx. simpl in Hx. lia.
      + lia.
  Qed.

  Lemma total_lossless : forall cs d it, history A (configs_of A cs) (a_new A d) = Ok it ->
    exists l, spans_of A (S (length d)) it = Ok l /\ spans d l /\ concat (texts l) = d /\ Forall (fun t => t <> []) (texts l)
      /\ length l <= length d.
  Proof.
    intros cs d it Hh. destruct (new_ok d) as (Nk & Ns & Nd).
    destruct (ao_new _ _ _ _ _ _ _ _ AO d) as (_ & Np & _).
    destruct (pos_after_configs cs _ _ Nk Np) as (it0 & H1 & H2 & H3 & H4). rewrite H1 in Hh. injection Hh as ->.
    pose proof (ao_next _ _ _ _ _ _ _ _ AO (k_after cs newK)) as NX.
    rewrite Nd in H4.
    destruct (collect_spans NX (S (length d)) it H3) as (l & HC & HS); try (rewrite H2, H4; lia).
    assert (HO : forall fuel x, collect (a_next A) (observe A) fuel x = collect (a_next A) (@obs_span _ pos start (a_value A)) fuel x).
    { induction fuel as [|fuel IH]; intros x; [reflexivity|]. cbn [collect]. destruct (a_next A x) as [[[|] x']| |]; try reflexivity.
      cbn [bind]. rewrite IH. unfold observe, obs_span. rewrite (ao_start _ _ _ _ _ _ _ _ AO), (ao_end _ _ _ _ _ _ _ _ AO). reflexivity. }
    exists l. unfold spans_of. rewrite HO. split; [exact HC|]. rewrite H2, H4 in HS. split; [exact HS|].
    destruct (spans_from_facts _ _ _ HS ltac:(lia)) as (A1 & A2 & A3). rewrite Nat.sub_0_r in A3. auto.
  Qed.
End ApiFacts.
