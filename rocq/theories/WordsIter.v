(** words.Iterator: one Next cuts off what the split function says, or the ASCII run of the hot path. *)
From Verif Require Import Base ListFacts Trie Engine Lk LookupFacts TableFacts TableWords SpecIter Drive WordsEngine Utf8.
From Verif Require Words.
Import Words.
Local Open Scope N_scope.

(** The hot path as a split function: words/iterator.go:48-63. *)
Definition hot_run (d : bytes) : option nat :=
  match d with
  | b :: s =>
    if isASCIIAlphanumeric b then
      let k := S (alnum_run s) in
      match skipn k d with
      | [] => Some k
      | b' :: _ => if b' =? 0x20 then Some k else None
      end
    else None
  | [] => None
  end.

Definition w_isplit (f : splitfun) : splitfun := fun d atEOF =>
  match hot_run d with
  | Some k => Ok (e_done k (firstn k d))
  | None => f d atEOF
  end.

Lemma alnum_run_le : forall d, (alnum_run d <= length d)%nat.
Proof. induction d as [|b d IH]; simpl; [lia|]. destruct (isASCIIAlphanumeric b); lia. Qed.

Lemma hot_run_le : forall d k, hot_run d = Some k -> (0 < k <= length d)%nat.
Proof.
  intros d k H. destruct d as [|b s]; [discriminate|]. unfold hot_run in H.
  destruct (isASCIIAlphanumeric b); [|discriminate]. pose proof (alnum_run_le s).
  destruct (skipn (S (alnum_run s)) (b :: s)) as [|b' r]; [|destruct (b' =? 0x20); [|discriminate]];
    injection H as <-; simpl; lia.
Qed.

Lemma nth_skipn : forall (d : bytes) k b, nth_error d k = Some b -> exists s, skipn k d = b :: s.
Proof.
  induction d as [|c d IH]; intros k b H; destruct k; simpl in *; try discriminate.
  - injection H as ->. eauto.
  - apply IH. exact H.
Qed.

(** At the end of the data [f] always cuts off a token. *)
Definition cuts (f : splitfun) : Prop := forall d, d <> [] -> exists n, (0 < n <= length d)%nat /\ f d true = Ok (e_done n (firstn n d)).

Lemma w_next_eq : forall f, cuts f -> forall it, it_split it = f -> (it_pos it < length (it_data it))%nat -> exists n,
  (0 < n <= length (it_data it) - it_pos it)%nat
  /\ w_isplit f (skipn (it_pos it) (it_data it)) true = Ok (e_done n (firstn n (skipn (it_pos it) (it_data it))))
  /\ Next it = Ok (true, with_pos it (it_pos it + n) (it_pos it)).
Proof.
  intros f OK it Hf Hlt.
  destruct (nth_error (it_data it) (it_pos it)) as [b|] eqn:Hb.
  2:{ apply nth_error_None in Hb. lia. }
  destruct (nth_skipn _ _ _ Hb) as (s & Hs).
  assert (Hlen : (length (b :: s) = length (it_data it) - it_pos it)%nat) by (rewrite <- Hs, skipn_length; reflexivity).
  unfold Next. replace (length (it_data it) <=? it_pos it)%nat with false by (symmetry; apply Nat.leb_gt; lia).
  set (it1 := with_pos it (it_pos it) (it_pos it)). cbv zeta.
  change (it_data it1) with (it_data it). change (it_pos it1) with (it_pos it).
  change (it_start it1) with (it_pos it).
  unfold byte_at. rewrite Hb. cbn [bind].
  assert (Hsplit : exists n, (0 < n <= length (it_data it) - it_pos it)%nat
    /\ f (b :: s) true = Ok (e_done n (firstn n (b :: s)))
    /\ next_split it1 = Ok (true, with_pos it (it_pos it + n) (it_pos it))).
  { destruct (OK (b :: s) ltac:(discriminate)) as (n & Hn & Hsp). exists n. split; [lia|]. split; [exact Hsp|].
    unfold next_split. change (it_data it1) with (it_data it). change (it_pos it1) with (it_pos it).
    change (it_start it1) with (it_pos it). change (it_split it1) with (it_split it).
    rewrite slice_from_ok by lia. cbn [bind]. rewrite Hf, Hs, Hsp. cbn [bind e_done so_err so_advance].
    replace (Z.of_nat n <=? 0)%Z with false by (symmetry; apply Z.leb_gt; lia). rewrite Nat2Z.id.
    replace (length (it_data it) <? it_pos it + n)%nat with false by (symmetry; apply Nat.ltb_ge; lia). reflexivity. }
  unfold w_isplit. rewrite Hs. destruct (hot_run (b :: s)) as [k|] eqn:Hh.
  - pose proof (hot_run_le _ _ Hh) as Hk. exists k. split; [lia|]. split; [reflexivity|].
    unfold hot_run in Hh. destruct (isASCIIAlphanumeric b); [|discriminate].
    rewrite slice_from_ok by lia. cbn [bind].
    assert (Hs1 : skipn (it_pos it + 1) (it_data it) = s).
    { replace (it_pos it + 1)%nat with (1 + it_pos it)%nat by lia. rewrite <- skipn_skipn, Hs. reflexivity. }
    rewrite Hs1.
    assert (Hsk : skipn (S (alnum_run s)) (b :: s) = skipn (it_pos it + 1 + alnum_run s) (it_data it)).
    { rewrite <- Hs, skipn_skipn. f_equal. lia. }
    rewrite Hsk in Hh.
    assert (Hend : (it_pos it + 1 + alnum_run s = it_pos it + S (alnum_run s))%nat) by lia.
    destruct (length (it_data it) <=? it_pos it + 1 + alnum_run s)%nat eqn:EL.
    + apply Nat.leb_le in EL. rewrite skipn_all2 in Hh by lia. injection Hh as <-. rewrite Hend. reflexivity.
    + apply Nat.leb_gt in EL.
      destruct (nth_error (it_data it) (it_pos it + 1 + alnum_run s)) as [b'|] eqn:Hb'.
      2:{ apply nth_error_None in Hb'. lia. }
      destruct (nth_skipn _ _ _ Hb') as (s' & Hs'). rewrite Hs' in Hh. cbn [bind].
      destruct (b' =? 0x20); [|discriminate]. injection Hh as <-. rewrite Hend. reflexivity.
  - destruct Hsplit as (n & Hn & Hsp & Hnx). exists n. split; [exact Hn|]. split; [exact Hsp|].
    unfold hot_run in Hh. destruct (isASCIIAlphanumeric b); [|exact Hnx].
    rewrite slice_from_ok by lia. cbn [bind].
    assert (Hs1 : skipn (it_pos it + 1) (it_data it) = s).
    { replace (it_pos it + 1)%nat with (1 + it_pos it)%nat by lia. rewrite <- skipn_skipn, Hs. reflexivity. }
    rewrite Hs1.
    assert (Hsk : skipn (S (alnum_run s)) (b :: s) = skipn (it_pos it + 1 + alnum_run s) (it_data it)).
    { rewrite <- Hs, skipn_skipn. f_equal. lia. }
    rewrite Hsk in Hh.
    destruct (length (it_data it) <=? it_pos it + 1 + alnum_run s)%nat eqn:EL.
    + apply Nat.leb_le in EL. rewrite skipn_all2 in Hh by lia. discriminate.
    + apply Nat.leb_gt in EL.
      destruct (nth_error (it_data it) (it_pos it + 1 + alnum_run s)) as [b'|] eqn:Hb'.
      2:{ apply nth_error_None in Hb'. lia. }
      destruct (nth_skipn _ _ _ Hb') as (s' & Hs'). rewrite Hs' in Hh. cbn [bind].
      destruct (b' =? 0x20); [discriminate|]. exact Hnx.
Qed.

Lemma w_next_ok : forall f, cuts f -> next_ok it_data it_pos it_start (w_isplit f)
  (fun it => it_split it = f) Next Value.
Proof.
  intros f OK. split.
  - intros it _ H. unfold Next. apply Nat.leb_le in H. rewrite H. reflexivity.
  - intros it Hf H. destruct (w_next_eq f OK it Hf H) as (n & Hn & Hs & Hx).
    exists n, (with_pos it (it_pos it + n) (it_pos it)). repeat split; auto; lia.
  - reflexivity.
Qed.

(** The hot path against the split function, for every Joiners without a space among its middle runes. *)
Definition alV : list N := [0x1; 0x8000; 0x101; 0x8101; 0x2001; 0xA000].

Lemma alnum_lookup : forall b s, isASCIIAlphanumeric b = true ->
  exists v, words_lookup (b :: s) = Ok (v, 1%nat) /\ (v = 0x1 \/ v = 0x8000).
Proof.
  intros b s H.
  assert (Hlt : b < 0x80).
  { unfold isASCIIAlphanumeric in H.
    repeat (apply orb_prop in H; destruct H as [H|H]); apply andb_prop in H; destruct H as [A B]; apply N.leb_le in A, B; lia. }
  assert (C : forallb (fun b => negb (isASCIIAlphanumeric b)
     || match words_lookup [b] with Ok (v, 1%nat) => (v =? 0x1) || (v =? 0x8000) | _ => false end) (upto 0 128) = true)
    by (vm_compute; reflexivity).
  rewrite forallb_forall in C. specialize (C b (in_upto 0 128 b ltac:(simpl; lia))). rewrite H in C. cbn [negb orb] in C.
  destruct (words_lookup [b]) as [[v [|[|w]]]| |] eqn:E; try discriminate. exists v.
  destruct (w_lk [b] ltac:(discriminate)) as (v' & w' & Hl & _ & Hst). rewrite E in Hl. injection Hl as <- <-.
  split; [exact (Hst ltac:(lia) s)|]. apply orb_prop in C. destruct C as [C|C]; apply N.eqb_eq in C; auto.
Qed.

Lemma space_lookup : forall s, words_lookup (0x20 :: s) = Ok (0x40000, 1%nat).
Proof.
  intros s. assert (E : words_lookup [0x20] = Ok (0x40000, 1%nat)) by (vm_compute; reflexivity).
  destruct (w_lk [0x20] ltac:(discriminate)) as (v' & w' & Hl & _ & Hst). rewrite E in Hl. injection Hl as <- <-.
  exact (Hst ltac:(lia) s).
Qed.

Lemma leadingBits_al : forall j d v, v = 0x1 \/ v = 0x8000 -> In (leadingBits j d v) alV.
Proof.
  intros j d v H. unfold leadingBits. destruct j as [jj|]; [destruct (runesContain _ _)|];
    destruct H as [-> | ->]; vm_compute; tauto.
Qed.
Lemma middleBits_al : forall j d v, v = 0x1 \/ v = 0x8000 -> In (middleBits j d v) alV.
Proof.
  intros j d v H. unfold middleBits. destruct j as [jj|]; [destruct (runesContain _ _)|];
    destruct H as [-> | ->]; vm_compute; tauto.
Qed.

Definition space_middle (j : option Joiners) : bool :=
  match j with Some jj => runesContain (Middle jj) 0x20 | None => false end.

Lemma al_not_ignore : forall v, In v alV -> is v _Ignore = false.
Proof. intros v H. simpl in H. repeat (destruct H as [<-|H]; [reflexivity|]). destruct H. Qed.
Lemma al_alnum : forall v, In v alV -> is v (N.lor _Numeric _AHLetter) = true.
Proof. intros v H. simpl in H. repeat (destruct H as [<-|H]; [reflexivity|]). destruct H. Qed.

Lemma al_join : forall st v d w b, In (ws_current st) alV -> In v alV -> (w <= length d)%nat ->
  exists st', w_erules st v d w b = Ok (EJoin w st') /\ ws_current st' = v.
Proof.
  intros st v d w b Hc Hv Hw. unfold w_erules. rewrite slice_from_ok by lia. cbn [bind].
  rewrite (al_not_ignore _ Hc). cbn [negb]. unfold w_rules. rewrite (al_alnum _ Hv), (al_alnum _ Hc). cbn [andb bind].
  eexists; split; reflexivity.
Qed.

Lemma al_space : forall st d b, In (ws_current st) alV -> (1 <= length d)%nat ->
  w_erules st 0x40000 d 1 b = Ok EBreak.
Proof.
  intros st d b Hc Hd. unfold w_erules. rewrite slice_from_ok by lia. cbn [bind].
  rewrite (al_not_ignore _ Hc). cbn [negb].
  simpl in Hc. repeat (destruct Hc as [<-|Hc]; [reflexivity|]). destruct Hc.
Qed.

Lemma hot_eloop : forall j, space_middle j = false -> forall d fuel st, In (ws_current st) alV -> (length d < fuel)%nat ->
  (skipn (alnum_run d) d = [] \/ exists r, skipn (alnum_run d) d = 0x20 :: r) ->
  eloop (WE j) fuel d true st = Ok (Some (alnum_run d)).
Proof.
  intros j Hj. induction d as [|b d IH]; intros fuel st Hc Hf Hr.
  { destruct fuel; [simpl in Hf; lia|]. reflexivity. }
  destruct fuel as [|fuel]; [simpl in Hf; lia|]. cbn [eloop is_nil].
  change (e_lk (WE j)) with (lkM j). change (e_rules (WE j)) with w_erules.
  cbn [alnum_run] in Hr |- *. destruct (isASCIIAlphanumeric b) eqn:E.
  - destruct (alnum_lookup b d E) as (v & Hl & Hv). unfold lkM. rewrite Hl. cbn [bind Nat.eqb].
    destruct (al_join st (middleBits j (b :: d) v) (b :: d) 1 true Hc (middleBits_al j (b :: d) v Hv) ltac:(simpl; lia)) as (st' & Hr' & Hc').
    rewrite Hr'. cbn [bind]. rewrite slice_from_ok by (simpl; lia). cbn [skipn bind].
    rewrite IH; [reflexivity| |simpl in Hf; lia| exact Hr]. rewrite Hc'. apply middleBits_al. exact Hv.
  - cbn [skipn] in Hr. destruct Hr as [Hr | (r & Hr)]; [discriminate|]. injection Hr as -> ->.
    unfold lkM. rewrite space_lookup. cbn [bind Nat.eqb].
    assert (middleBits j (0x20 :: r) 0x40000 = 0x40000) as ->.
    { unfold middleBits. destruct j as [jj|]; [|reflexivity]. unfold space_middle in Hj.
      cbn [DecodeRune fst]. change (0x20 <? 0x80) with true. cbn [fst]. rewrite Hj. reflexivity. }
    rewrite al_space by (auto; simpl; lia). reflexivity.
Qed.

Lemma hot_path_agrees : forall j, space_middle j = false -> forall d,
  w_isplit (joinersSplitFunc j) d true = joinersSplitFunc j d true.
Proof.
  intros j Hj d. unfold w_isplit. destruct (hot_run d) as [k|] eqn:Hh; [|reflexivity].
  destruct d as [|b s]; [discriminate|]. rewrite <- w_split_engine. unfold hot_run in Hh.
  destruct (isASCIIAlphanumeric b) eqn:E; [|discriminate].
  assert (Hk : k = S (alnum_run s) /\ (skipn (alnum_run s) s = [] \/ exists r, skipn (alnum_run s) s = 0x20 :: r)).
  { cbn [skipn] in Hh. destruct (skipn (alnum_run s) s) as [|b' r]; [injection Hh as <-; auto|].
    destruct (b' =? 0x20) eqn:Eb; [|discriminate]. apply N.eqb_eq in Eb. subst b'. injection Hh as <-. eauto. }
  destruct Hk as (-> & Hr). unfold esplit. cbn [is_nil]. change (e_lk0 (WE j)) with (lkL j). unfold lkL.
  destruct (alnum_lookup b s E) as (v & Hl & Hv). rewrite Hl. cbn [bind Nat.eqb].
  rewrite slice_from_ok by (simpl; lia). cbn [skipn bind].
  rewrite (hot_eloop j Hj s (w_fuel (b :: s)) (e_init (WE j) (leadingBits j (b :: s) v))).
  - cbn [bind]. pose proof (alnum_run_le s). rewrite slice_to_ok by (simpl; lia). reflexivity.
  - apply (leadingBits_al j (b :: s) v Hv).
  - unfold w_fuel. simpl. lia.
  - exact Hr.
Qed.

(** next_ok directly for the split function when no middle joiner is a space; in particular for the default. *)
Lemma w_next_ok_joiners : forall j, space_middle j = false ->
  next_ok it_data it_pos it_start (joinersSplitFunc j) (fun it => it_split it = joinersSplitFunc j) Next Value.
Proof.
  intros j Hj. destruct (w_next_ok _ (so_eof _ (w_split_ok j))) as [A B C]. split; auto.
  intros it Hi Hlt. destruct (B it Hi Hlt) as (n & it' & H1 & H2 & H3). exists n, it'. split; [exact H1|]. split; [|exact H3].
  rewrite <- H2. symmetry. apply hot_path_agrees. exact Hj.
Qed.
