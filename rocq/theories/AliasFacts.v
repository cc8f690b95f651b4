(** Writing to delivered tokens changes nothing. *)
From Verif Require Import Base ListFacts Engine SpecIter SpecApi Drive ApiFacts Scanner Alias SpecAlias.

Lemma put_length : forall mem i bs, i + length bs <= length mem -> length (put mem i bs) = length mem.
Proof. intros. unfold put. rewrite !app_length, firstn_length, skipn_length. lia. Qed.
Lemma put_skipn : forall mem i bs n, i + length bs <= n -> i + length bs <= length mem -> skipn n (put mem i bs) = skipn n mem.
Proof.
  intros mem i bs n H L. unfold put. rewrite !skipn_app, !firstn_length. rewrite skipn_all2 by (rewrite firstn_length; lia). rewrite (skipn_all2 bs) by lia. cbn [app].
  rewrite skipn_skipn. f_equal. lia.
Qed.
Lemma skipn_content : forall mem w n, fits mem w -> skipn n (content mem w) = firstn (w_len w - n) (skipn (w_off w + n) mem).
Proof. intros. unfold content. rewrite skipn_firstn_comm, skipn_skipn. f_equal. f_equal. lia. Qed.
Lemma content_length : forall mem w, fits mem w -> length (content mem w) = w_len w.
Proof. intros mem w [F1 F2]. unfold content. rewrite firstn_length, skipn_length. lia. Qed.

Section Facts.
  Context {A : api} {K : Type} {data : It A -> bytes} {pos start : It A -> nat} {kof : It A -> K -> Prop} {f : K -> splitfun} {newK : K} {cfgK : Cfg A -> K -> K}.
  Hypothesis AO : api_ok A data pos start kof f newK cfgK.
  Variable over : It A -> bytes -> It A.
  Hypothesis OV : forall it d k, kof it k -> data (over it d) = d /\ pos (over it d) = pos it /\ start (over it d) = start it /\ kof (over it d) k.
  Definition delivered (w : window) (p : nat) (t : window) : Prop := w_off w <= w_off t /\ w_off t + w_len t <= w_off w + p.

  (** The same state of the calls over two memories that agree behind [pos]. *)
  Record alike (w : window) (it it0 : It A) (mem mem0 : bytes) (k : K) : Prop := {
    al_k : kof it k; al_k0 : kof it0 k; al_pos : pos it = pos it0; al_in : pos it <= w_len w;
    al_len : length mem = length mem0; al_rest : skipn (w_off w + pos it) mem = skipn (w_off w + pos it) mem0 }.
  Lemma next_alike : forall w it it0 mem mem0 k, fits mem0 w -> alike w it it0 mem mem0 k ->
    (pos it = w_len w /\ (exists it', pos it' = pos it /\ a_next A (over it (content mem w)) = Ok (false, it') /\ exists it0', a_next A (over it0 (content mem0 w)) = Ok (false, it0') /\ alike w it' it0' mem mem0 k))
    \/ (exists n it' it0', 0 < n <= w_len w - pos it /\ f k (skipn (pos it) (content mem0 w)) true = Ok (e_done n (firstn n (skipn (pos it) (content mem0 w)))) /\
         a_next A (over it (content mem w)) = Ok (true, it') /\ a_next A (over it0 (content mem0 w)) = Ok (true, it0')
         /\ start it' = pos it /\ start it0' = pos it /\ pos it' = pos it + n /\ alike w it' it0' mem mem0 k
         /\ a_value A it' = Ok (content mem (sub w (start it') (pos it'))) /\ exists v, a_value A it0' = Ok v).
  Proof.
    intros w it it0 mem mem0 k F [H1 H2 H3 H4 H5 H6]. assert (F' : fits mem w) by (unfold fits in *; rewrite H5; exact F).
    destruct (OV it (content mem w) k H1) as (D & P & S & I). destruct (OV it0 (content mem0 w) k H2) as (D0 & P0 & S0 & I0).
    pose proof (ao_next _ _ _ _ _ _ _ _ AO k) as NX. 
    assert (SK : skipn (pos it) (content mem w) = skipn (pos it) (content mem0 w)) by (rewrite !skipn_content by assumption; now rewrite H6).
    destruct (Nat.lt_ge_cases (pos it) (w_len w)) as [L|L].
    - right. destruct (nx_step _ _ _ _ _ _ _ NX (over it (content mem w)) I) as (n & it' & B & E & N & D1 & S1 & P1 & I1). { rewrite P, D, content_length by assumption. exact L. }
      destruct (nx_step _ _ _ _ _ _ _ NX (over it0 (content mem0 w)) I0) as (n0 & it0' & B0 & E0 & N0 & D10 & S10 & P10 & I10). { rewrite P0, D0, content_length, <- H3 by assumption. exact L. }
      rewrite P, D in *. rewrite P0, D0, <- H3 in *. rewrite SK in E. assert (n = n0). { rewrite E in E0. injection E0 as X _. lia. } subst n0.
      rewrite content_length in B by assumption. exists n, it', it0'. repeat split; try assumption; try lia; try congruence.
      + rewrite P1. replace (w_off w + (pos it + n)) with (n + (w_off w + pos it)) by lia. rewrite <- (skipn_skipn n (w_off w + pos it) mem), <- (skipn_skipn n (w_off w + pos it) mem0). now rewrite H6.
      + rewrite (nx_value _ _ _ _ _ _ _ NX it' I1), D1, S1, P1. rewrite slice_ok by (rewrite content_length by assumption; lia). f_equal. unfold content, sub. cbn [w_off w_len w_cap].
        rewrite skipn_firstn_comm, skipn_skipn, firstn_firstn. f_equal; [lia|]. f_equal. lia.
      + eexists. rewrite (nx_value _ _ _ _ _ _ _ NX it0' I10), D10, S10, P10. rewrite slice_ok by (rewrite content_length by assumption; lia). reflexivity.
    - left. split; [lia|]. exists (over it (content mem w)). split; [exact P|]. split. { apply (nx_end _ _ _ _ _ _ _ NX); [exact I|]. rewrite D, P, content_length by assumption. exact L. }
      exists (over it0 (content mem0 w)). split. { apply (nx_end _ _ _ _ _ _ _ NX); [exact I0|]. rewrite D0, P0, <- H3, content_length by assumption. exact L. }
      constructor; try assumption; rewrite ?P, ?P0; assumption.
  Qed.
  (** What is written to a delivered window. *)
  Lemma put_alike : forall w it it0 mem mem0 k i bs, fits mem0 w -> alike w it it0 mem mem0 k -> w_off w <= i -> i + length bs <= w_off w + pos it -> alike w it it0 (put mem i bs) mem0 k.
  Proof.
    intros w it it0 mem mem0 k i bs [F1 F2] [H1 H2 H3 H4 H5 H6] B1 B2. constructor; try assumption; [rewrite put_length by lia; exact H5|]. rewrite put_skipn by lia. exact H6.
  Qed.
  Lemma store_alike : forall w it it0 mem mem0 k t i b, fits mem0 w -> alike w it it0 mem mem0 k -> delivered w (pos it) t -> alike w it it0 (store t i b mem) mem0 k.
  Proof.
    intros w it it0 mem mem0 k t i b F H [D1 D2]. unfold store. destruct (Nat.ltb_spec i (w_len t)); [|exact H]. apply put_alike; try assumption; cbn [length]; lia.
  Qed.
  Lemma content_alike : forall w it it' it0 mem mem0 k, fits mem0 w -> alike w it it0 mem mem0 k -> start it' = pos it -> pos it <= pos it' <= w_len w ->
    content mem (sub w (start it') (pos it')) = content mem0 (sub w (start it') (pos it')).
  Proof. intros w it it' it0 mem mem0 k [F1 F2] H S P. unfold content, sub. cbn [w_off w_len]. rewrite S. now rewrite (al_rest _ _ _ _ _ _ H). Qed.

  Lemma client_alike : forall acts w ks ks0 it it0 mem mem0 k, fits mem0 w -> alike w it it0 mem mem0 k -> Forall (delivered w (pos it)) ks -> Forall no_append acts ->
    exists l, client A over acts w ks it mem = Ok l /\ client A over (filter (fun a => negb (is_store a)) acts) w ks0 it0 mem0 = Ok l.
  Proof.
    induction acts as [|a acts IH]; intros w ks ks0 it it0 mem mem0 k F H D NA; [exists []; split; reflexivity|]. inversion NA as [|? ? NA1 NA2]; subst. destruct a; cbn [filter is_store negb client].
    - destruct (next_alike _ _ _ _ _ _ F H) as [(P & it' & P' & N & it0' & N0 & H')|(n & it' & it0' & B & _ & N & N0 & S & S0 & P & H' & V & v & V0)].
      + rewrite N, N0. cbn [bind]. destruct (IH w ks ks0 it' it0' mem mem0 k F H') as (l & E & E0); [rewrite P'; exact D|exact NA2|]. rewrite E, E0. cbn [bind]. eexists. split; reflexivity.
      + rewrite N, N0. cbn [bind]. rewrite V, V0. cbn [bind]. rewrite !(ao_start _ _ _ _ _ _ _ _ AO), !(ao_end _ _ _ _ _ _ _ _ AO), S, S0. rewrite <- (al_pos _ _ _ _ _ _ H'). rewrite <- S.
        rewrite (content_alike w it it' it0 mem mem0 k F H S ltac:(lia)). 
        destruct (IH w (ks ++ [sub w (start it') (pos it')]) (ks0 ++ [sub w (start it') (pos it')]) it' it0' mem mem0 k F H') as (l & E & E0); [|exact NA2|].
        { apply Forall_app. split; [|constructor; [|constructor]].
          - eapply Forall_impl; [|exact D]. intros t [D1 D2]. split; [exact D1|lia].
          - split; cbn [sub w_off w_len]; lia. }
        rewrite E, E0. cbn [bind]. eexists. split; reflexivity.
    - destruct (nth_error ks k0) as [t|] eqn:T; [|eapply IH; eassumption]. eapply (IH w ks ks0 it it0 _ mem0 k); [exact F| |exact D|exact NA2]. apply store_alike; [exact F|exact H|].
      rewrite Forall_forall in D. apply D. eapply nth_error_In. exact T.
    - contradiction.
    - destruct H as [H1 H2 H3 H4 H5 H6]. destruct (ao_config _ _ _ _ _ _ _ _ AO it k c H1) as (_ & P & _ & I). destruct (ao_config _ _ _ _ _ _ _ _ AO it0 k c H2) as (_ & P0 & _ & I0).
      eapply (IH w ks ks0 _ _ mem mem0 (cfgK c k) F); [|rewrite P; exact D|exact NA2]. constructor; try assumption; rewrite ?P, ?P0; assumption.
  Qed.
  Lemma writing_ok : writing_is_harmless A over.
  Proof.
    intros acts w mem F NA. destruct (ao_new _ _ _ _ _ _ _ _ AO (content mem w)) as (D & P & S & I). eapply client_alike; [exact F| |constructor|exact NA].
    constructor; try exact I; try reflexivity. rewrite P. lia.
  Qed.

  (** In place. *)
  Lemma put_app : forall a b c bs, length bs = length b -> put (a ++ b ++ c) (length a) bs = a ++ bs ++ c.
  Proof.
    intros a b c bs L. unfold put. rewrite firstn_app, firstn_all, Nat.sub_diag. cbn [firstn]. rewrite app_nil_r. f_equal. f_equal. rewrite L. rewrite app_assoc, <- app_length. rewrite skipn_app, skipn_all, Nat.sub_diag. reflexivity.
  Qed.
  Lemma transform_alike : forall fuel g w it it0 mem mem0 k, (forall t, length (g t) = length t) -> fits mem0 w -> alike w it it0 mem mem0 k -> data it0 = content mem0 w -> w_len w - pos it < fuel ->
    exists toks, tokens A fuel it0 = Ok toks /\ transform A over fuel g w it mem = Ok (firstn (w_off w + pos it) mem ++ concat (map g toks) ++ skipn (w_off w + w_len w) mem0).
  Proof.
    induction fuel as [|fuel IH]; intros g w it it0 mem mem0 k G F H D0 L; [lia|]. unfold tokens in *. cbn [transform collect].
    pose proof (ao_next _ _ _ _ _ _ _ _ AO k) as NX. destruct F as [F1 F2]. pose proof (content_length _ _ (conj F1 F2)) as CL.
    destruct (next_alike _ _ _ _ _ _ (conj F1 F2) H) as [(P & it' & P' & N & it0' & N0 & H')|(n & it' & it0' & B & SP & N & N0 & S & S0 & P & H' & V & v & V0)].
    - rewrite N. cbn [bind]. exists []. split.
      + rewrite (nx_end _ _ _ _ _ _ _ NX it0 (al_k0 _ _ _ _ _ _ H)); [reflexivity|]. rewrite D0, CL, <- (al_pos _ _ _ _ _ _ H). lia.
      + cbn [map concat app]. f_equal. rewrite P. rewrite <- (firstn_skipn (w_off w + w_len w) mem) at 1. f_equal. pose proof (al_rest _ _ _ _ _ _ H) as R. rewrite P in R. exact R.
    - rewrite N. cbn [bind]. rewrite V. cbn [bind]. rewrite (ao_start _ _ _ _ _ _ _ _ AO), (ao_end _ _ _ _ _ _ _ _ AO).
      destruct (nx_step _ _ _ _ _ _ _ NX it0 (al_k0 _ _ _ _ _ _ H)) as (n' & it1 & B1 & E1 & N1 & D1 & S1 & P1 & I1). { rewrite D0, CL, <- (al_pos _ _ _ _ _ _ H). lia. }
      rewrite N1. cbn [bind]. rewrite D0, <- (al_pos _ _ _ _ _ _ H) in *. assert (n' = n). { rewrite SP in E1. injection E1 as X _. lia. } subst n'.
      rewrite (nx_value _ _ _ _ _ _ _ NX it1 I1), D1, S1, P1. rewrite slice_ok by lia. cbn [bind]. replace (pos it + n - pos it) with n by lia.
      set (tok := firstn n (skipn (pos it) (content mem0 w))). set (t := sub w (start it') (pos it')).
      assert (CT : content mem t = tok). { unfold t. rewrite (content_alike w it it' it0 mem mem0 k (conj F1 F2) H S ltac:(lia)). unfold tok, content, sub. cbn [w_off w_len]. rewrite S, P.
        rewrite skipn_firstn_comm, skipn_skipn, firstn_firstn. f_equal; [lia|]. f_equal. lia. }
      rewrite CT. assert (TL : length tok = n) by (unfold tok; rewrite firstn_length, skipn_length; lia).
      assert (WL : w_len t = n) by (unfold t, sub; cbn; lia). assert (WO : w_off t = w_off w + pos it) by (unfold t, sub; cbn; lia).
      assert (CP : copy_to t (g tok) mem = put mem (w_off w + pos it) (g tok)). { unfold copy_to. rewrite WL, WO, (firstn_all2 (g tok)) by (rewrite G; lia). reflexivity. }
      rewrite CP. pose proof (al_len _ _ _ _ _ _ H) as ML. 
      destruct (IH g w it' it1 (put mem (w_off w + pos it) (g tok)) mem0 k G (conj F1 F2)) as (toks & TK & TR).
      + apply put_alike; [exact (conj F1 F2)| |lia|rewrite G; lia]. destruct H' as [Q1 Q2 Q3 Q4 Q5 Q6]. constructor; try assumption. lia.
      + rewrite D1. reflexivity.
      + lia.
      + rewrite TK. cbn [bind]. exists (tok :: toks). split; [reflexivity|]. rewrite TR. cbn [map concat]. f_equal.
        assert (FP : firstn (w_off w + pos it') (put mem (w_off w + pos it) (g tok)) = firstn (w_off w + pos it) mem ++ g tok).
        { unfold put. rewrite P, G, TL. rewrite firstn_app, firstn_firstn, firstn_length. rewrite (Nat.min_r (w_off w + (pos it + n))) by lia. f_equal.
          replace (w_off w + (pos it + n) - Nat.min (w_off w + pos it) (length mem)) with n by lia. rewrite firstn_app, (firstn_all2 (g tok)) by (rewrite G; lia). rewrite G, TL, Nat.sub_diag. cbn [firstn]. apply app_nil_r. }
        rewrite FP, <- !app_assoc. reflexivity.
  Qed.
  Lemma configs_ok : forall cs it k, kof it k -> exists k', kof (fold_left (a_config A) cs it) k' /\ data (fold_left (a_config A) cs it) = data it /\ pos (fold_left (a_config A) cs it) = pos it.
  Proof.
    induction cs as [|c cs IH]; intros it k H; [exists k; repeat split; exact H|]. cbn [fold_left]. destruct (ao_config _ _ _ _ _ _ _ _ AO it k c H) as (D & P & _ & I). destruct (IH _ _ I) as (k' & K' & D' & P').
    exists k'. split; [exact K'|]. split; congruence.
  Qed.
  Lemma transform_ok : transforms_in_place A over.
  Proof.
    intros cs g w mem fuel F G L it. destruct (ao_new _ _ _ _ _ _ _ _ AO (content mem w)) as (D & P & S & I). destruct (configs_ok cs _ _ I) as (k & K' & D' & P').
    destruct (transform_alike fuel g w it it mem mem k G F) as (toks & T1 & T2).
    - constructor; try exact K'; try reflexivity. fold it in P'. lia.
    - fold it in D'. rewrite D', D. reflexivity.
    - lia.
    - exists toks. split; [exact T1|]. rewrite T2. fold it in P'. rewrite P', P, Nat.add_0_r. reflexivity.
  Qed.
End Facts.
