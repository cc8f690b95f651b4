(** The property lookup against the flat range tables, for every scalar value. *)
From Verif Require Import Base Trie LookupFacts TableFacts SpecUtf8 SpecUcd.
From Verif Require TableGraphemes TableWords TableSentences TablePhrases.
Local Open Scope N_scope.

Definition rtable := list (N * N * N).

Definition bits_of (ts : list rtable) (cp : N) : N := fold_right N.lor 0 (map (fun t => range_value 0 t cp) ts).

(** Walking through all code points with one pointer into each table. *)
Fixpoint ascending (bound : N) (t : rtable) : bool :=
  match t with
  | [] => true
  | (lo, hi, _) :: r => (bound <=? lo) && (lo <=? hi) && ascending (hi + 1) r
  end.
Definition here (cp : N) (t : rtable) : N :=
  match t with [] => 0 | (lo, _, v) :: _ => if lo <=? cp then v else 0 end.
Definition drop (cp : N) (t : rtable) : rtable :=
  match t with [] => [] | (_, hi, _) :: r => if hi <=? cp then r else t end.

Definition wf_at (cp : N) (t : rtable) : Prop :=
  match t with [] => True | (lo, hi, _) :: r => cp <= hi /\ lo <= hi /\ ascending (hi + 1) r = true end.

Lemma ascending_below : forall t b c, ascending b t = true -> c < b -> range_value 0 t c = 0.
Proof.
  induction t as [|[[lo hi] v] t IH]; intros b c H Hc; [reflexivity|]. cbn [ascending] in H.
  apply andb_prop in H. destruct H as [H H2]. apply andb_prop in H. destruct H as [H0 H1].
  apply N.leb_le in H0, H1. cbn [range_value].
  replace (lo <=? c) with false by (symmetry; apply N.leb_gt; lia). cbn [andb]. apply (IH (hi + 1)); [exact H2|lia].
Qed.
Lemma ascending_wf : forall t b, ascending b t = true -> wf_at b t.
Proof.
  intros [|[[lo hi] v] t] b H; [exact I|]. cbn [ascending] in H.
  apply andb_prop in H. destruct H as [H H2]. apply andb_prop in H. destruct H as [H0 H1].
  apply N.leb_le in H0, H1. simpl. repeat split; auto; lia.
Qed.
Lemma here_value : forall t cp, wf_at cp t -> here cp t = range_value 0 t cp.
Proof.
  intros [|[[lo hi] v] t] cp H; [reflexivity|]. simpl in H. destruct H as (H1 & H2 & H3). cbn [here range_value].
  destruct (lo <=? cp) eqn:E; cbn [andb].
  - replace (cp <=? hi) with true by (symmetry; apply N.leb_le; lia). reflexivity.
  - symmetry. apply N.leb_gt in E. apply (ascending_below _ (hi + 1)); [exact H3|lia].
Qed.
Lemma drop_wf : forall t cp, wf_at cp t -> wf_at (cp + 1) (drop cp t).
Proof.
  intros [|[[lo hi] v] t] cp H; [exact I|]. simpl in H. destruct H as (H1 & H2 & H3). cbn [drop].
  destruct (hi <=? cp) eqn:E.
  - apply N.leb_le in E. assert (hi = cp) by lia. subst hi. apply ascending_wf. exact H3.
  - apply N.leb_gt in E. simpl. repeat split; auto; lia.
Qed.
Lemma drop_value : forall t cp c, wf_at cp t -> cp < c -> range_value 0 (drop cp t) c = range_value 0 t c.
Proof.
  intros [|[[lo hi] v] t] cp c H Hc; [reflexivity|]. simpl in H. destruct H as (H1 & H2 & H3). cbn [drop].
  destruct (hi <=? cp) eqn:E; [|reflexivity]. apply N.leb_le in E. cbn [range_value].
  replace (c <=? hi) with false by (symmetry; apply N.leb_gt; lia). rewrite andb_false_r. reflexivity.
Qed.

(** The same encoding with shifts and masks, which the kernel evaluates much faster. *)
Definition utf8f (cp : N) : bytes :=
  if cp <? 0x80 then [cp]
  else if cp <? 0x800 then [0xC0 + N.shiftr cp 6; 0x80 + N.land cp 0x3F]
  else if cp <? 0x10000 then [0xE0 + N.shiftr cp 12; 0x80 + N.land (N.shiftr cp 6) 0x3F; 0x80 + N.land cp 0x3F]
  else [0xF0 + N.shiftr cp 18; 0x80 + N.land (N.shiftr cp 12) 0x3F; 0x80 + N.land (N.shiftr cp 6) 0x3F; 0x80 + N.land cp 0x3F].
Lemma utf8f_eq : forall cp, utf8f cp = utf8 cp.
Proof.
  intros. unfold utf8f, utf8. change 0x3F with (N.ones 6). rewrite !N.land_ones, !N.shiftr_div_pow2. reflexivity.
Qed.

Section Sweep.
  Variable lk : bytes -> res (N * nat).
  Variable ts : list rtable.

  Definition check1 (cp v : N) : bool :=
    let e := utf8f cp in
    if (0xD800 <=? cp) && (cp <? 0xE000) then true
    else match lk e with
         | Ok (v', w) => (v' =? v) && Nat.eqb w (length e)
         | _ => false
         end.
  Definition sweep_step (s : N * list rtable * bool) : N * list rtable * bool :=
    let '(cp, rem, ok) := s in
    if ok then (cp + 1, map (drop cp) rem, check1 cp (fold_right N.lor 0 (map (here cp) rem))) else (cp + 1, rem, false).
  Definition sweep (n : N) : bool :=
    forallb (ascending 0) ts && snd (N.iter n sweep_step (0, ts, true)).

  Definition sw_inv (s : N * list rtable * bool) : Prop :=
    let '(cp, rem, ok) := s in
    ok = true -> Forall2 (fun r t => wf_at cp r /\ forall c, cp <= c -> range_value 0 r c = range_value 0 t c) rem ts
      /\ forall c, c < cp -> check1 c (bits_of ts c) = true.

  Lemma here_bits : forall cp rem ts0, Forall2 (fun r t => wf_at cp r /\ forall c, cp <= c -> range_value 0 r c = range_value 0 t c) rem ts0 ->
    map (here cp) rem = map (fun t => range_value 0 t cp) ts0.
  Proof.
    intros cp rem ts0 H. induction H as [|r t rem ts0 [H1 H2] H IH]; [reflexivity|]. cbn [map]. rewrite IH. f_equal.
    rewrite here_value by exact H1. apply H2. lia.
  Qed.

  Lemma drop_all : forall cp rem ts0, Forall2 (fun r t => wf_at cp r /\ forall c, cp <= c -> range_value 0 r c = range_value 0 t c) rem ts0 ->
    Forall2 (fun r t => wf_at (cp + 1) r /\ forall c, cp + 1 <= c -> range_value 0 r c = range_value 0 t c) (map (drop cp) rem) ts0.
  Proof.
    intros cp rem ts0 H. induction H as [|r t rem ts0 [H1 H2] H IH]; cbn [map]; constructor; auto.
    split; [apply drop_wf; exact H1|]. intros c Hcp. rewrite drop_value by (auto; lia). apply H2. lia.
  Qed.

  Lemma sweep_step_inv : forall s, sw_inv s -> sw_inv (sweep_step s).
  Proof.
    intros [[cp rem] ok] H. destruct ok; [|intros Hf; discriminate]. cbn [sweep_step]. intros Hc.
    destruct (H eq_refl) as (HF & HA). split; [apply drop_all; exact HF|].
    intros c Hlt. destruct (N.eq_dec c cp) as [->|Hne]; [|apply HA; lia].
    unfold bits_of. rewrite <- (here_bits _ _ _ HF). exact Hc.
  Qed.

  Lemma sweep_cp : forall n s, fst (fst (N.iter n sweep_step s)) = fst (fst s) + n.
  Proof.
    intros n s. induction n as [|n IH] using N.peano_ind; [simpl; lia|]. rewrite N.iter_succ.
    destruct (N.iter n sweep_step s) as [[cp rem] ok]. cbn [fst] in IH. cbn [sweep_step]. destruct ok; cbn [fst]; lia.
  Qed.

  Lemma sweep_sound : forall n, sweep n = true -> forall c, c < n -> check1 c (bits_of ts c) = true.
  Proof.
    intros n H c Hc. unfold sweep in H. apply andb_prop in H. destruct H as [HA HB].
    assert (HI : sw_inv (N.iter n sweep_step (0, ts, true))).
    { apply N.iter_invariant; [apply sweep_step_inv|]. intros _. split; [|intros; lia].
      rewrite forallb_forall in HA. clear HB. induction ts as [|t ts0 IH]; constructor.
      - split; [|reflexivity]. apply ascending_wf. apply HA. left. reflexivity.
      - apply IH. intros x Hx. apply HA. right. exact Hx. }
    pose proof (sweep_cp n (0, ts, true)) as HC. destruct (N.iter n sweep_step (0, ts, true)) as [[cp rem] ok].
    cbn [fst snd] in *. destruct (HI HB) as (_ & HK). apply HK. lia.
  Qed.
End Sweep.

(** ** By blocks
    Most blocks of 64 code points are uniform in every table; the trie then names a uniform block of values. *)
Section Blocks.
  Variables values index : arr.
  Variable ts : list rtable.
  Notation lk := (lookup values index).
  Notation agrees cp := (fun r t => wf_at cp r /\ forall c, cp <= c -> range_value 0 r c = range_value 0 t c).

  (** The block of values for the code points 64 q .. 64 q + 63. *)
  Definition leaf (q : N) : res N :=
    if q <? 0x20 then arr_get index (0xC0 + q)
    else if q <? 0x400 then
      i <- arr_get index (0xE0 + N.shiftr q 6) ;;
      arr_get index (u32 (u32 (N.shiftl i 6) + (0x80 + N.land q 0x3F)))
    else
      i <- arr_get index (0xF0 + N.shiftr q 12) ;;
      i <- arr_get index (u32 (u32 (N.shiftl i 6) + (0x80 + N.land (N.shiftr q 6) 0x3F))) ;;
      arr_get index (u32 (u32 (N.shiftl i 6) + (0x80 + N.land q 0x3F))).

  Lemma cont_ok : forall x, notCont (0x80 + x mod 0x40) = false.
  Proof.
    intros x. unfold notCont. assert (HM : x mod 0x40 < 0x40) by (apply N.mod_lt; discriminate). revert HM. generalize (x mod 0x40). intros y HM.
    apply orb_false_iff. split; [apply N.ltb_ge|apply N.leb_gt]; lia.
  Qed.
  Lemma leaf_lookup : forall cp i v, 0x80 <= cp < 0x110000 -> leaf (cp / 0x40) = Ok i -> lookupValue values i (0x80 + cp mod 0x40) = Ok v ->
    lk (utf8 cp) = Ok (v, length (utf8 cp)).
  Proof.
    intros cp i v Hcp HL HV. unfold leaf in HL. change 0x3F with (N.ones 6) in HL. rewrite !N.land_ones, !N.shiftr_div_pow2 in HL.
    change (2 ^ 6) with 0x40 in HL. change (2 ^ 12) with 0x1000 in HL. rewrite !N.div_div in HL by lia.
    change (0x40 * 0x40) with 0x1000 in HL. change (0x40 * 0x1000) with 0x40000 in HL.
    unfold utf8. replace (cp <? 0x80) with false by (symmetry; apply N.ltb_ge; lia).
    destruct (cp <? 0x800) eqn:E1.
    { apply N.ltb_lt in E1. assert (cp / 0x40 < 0x20) by (apply N.div_lt_upper_bound; lia).
      assert (2 <= cp / 0x40) by (apply N.div_le_lower_bound; lia).
      rewrite (proj2 (N.ltb_lt _ _)) in HL by assumption.
      unfold lookup, byte_at. cbn [nth_error bind length].
      replace (0xC0 + cp / 0x40 <? 0x80) with false by (symmetry; apply N.ltb_ge; lia).
      replace (0xC0 + cp / 0x40 <? 0xC2) with false by (symmetry; apply N.ltb_ge; lia).
      replace (0xC0 + cp / 0x40 <? 0xE0) with true by (symmetry; apply N.ltb_lt; lia).
      cbn [Nat.ltb Nat.leb]. rewrite HL. cbn [bind]. rewrite cont_ok, HV. reflexivity. }
    apply N.ltb_ge in E1. assert (0x20 <= cp / 0x40) by (apply N.div_le_lower_bound; lia).
    rewrite (proj2 (N.ltb_ge _ _)) in HL by assumption.
    destruct (cp <? 0x10000) eqn:E2.
    { apply N.ltb_lt in E2. assert (cp / 0x40 < 0x400) by (apply N.div_lt_upper_bound; lia).
      assert (cp / 0x1000 < 0x10) by (apply N.div_lt_upper_bound; lia). pose proof (N.le_0_l (cp / 0x1000)).
      rewrite (proj2 (N.ltb_lt _ _)) in HL by assumption.
      unfold lookup, byte_at. cbn [nth_error bind length].
      replace (0xE0 + cp / 0x1000 <? 0x80) with false by (symmetry; apply N.ltb_ge; lia).
      replace (0xE0 + cp / 0x1000 <? 0xC2) with false by (symmetry; apply N.ltb_ge; lia).
      replace (0xE0 + cp / 0x1000 <? 0xE0) with false by (symmetry; apply N.ltb_ge; lia).
      replace (0xE0 + cp / 0x1000 <? 0xF0) with true by (symmetry; apply N.ltb_lt; lia).
      cbn [Nat.ltb Nat.leb]. destruct (arr_get index (0xE0 + cp / 0x1000)) as [j| |]; try discriminate. cbn [bind] in HL |- *.
      rewrite !cont_ok, HL. cbn [bind]. rewrite HV. reflexivity. }
    apply N.ltb_ge in E2. assert (0x400 <= cp / 0x40) by (apply N.div_le_lower_bound; lia).
    rewrite (proj2 (N.ltb_ge _ _)) in HL by assumption.
    assert (cp / 0x40000 < 8) by (apply N.div_lt_upper_bound; lia). pose proof (N.le_0_l (cp / 0x40000)).
    unfold lookup, byte_at. cbn [nth_error bind length].
    replace (0xF0 + cp / 0x40000 <? 0x80) with false by (symmetry; apply N.ltb_ge; lia).
    replace (0xF0 + cp / 0x40000 <? 0xC2) with false by (symmetry; apply N.ltb_ge; lia).
    replace (0xF0 + cp / 0x40000 <? 0xE0) with false by (symmetry; apply N.ltb_ge; lia).
    replace (0xF0 + cp / 0x40000 <? 0xF0) with false by (symmetry; apply N.ltb_ge; lia).
    replace (0xF0 + cp / 0x40000 <? 0xF8) with true by (symmetry; apply N.ltb_lt; lia).
    cbn [Nat.ltb Nat.leb]. destruct (arr_get index (0xF0 + cp / 0x40000)) as [j| |]; try discriminate. cbn [bind] in HL |- *.
    rewrite !cont_ok. destruct (arr_get index (u32 (u32 (N.shiftl j 6) + _))) as [j2| |]; try discriminate. cbn [bind] in HL |- *.
    rewrite HL. cbn [bind]. rewrite HV. reflexivity.
  Qed.

  (** The value of a table that is constant on cp .. cp + 63. *)
  Definition uni (cp : N) (t : rtable) : option N :=
    match t with
    | [] => Some 0
    | (lo, hi, v) :: _ => if cp + 63 <? lo then Some 0 else if (lo <=? cp) && (cp + 63 <=? hi) then Some v else None
    end.
  Fixpoint unis (cp : N) (rem : list rtable) : option N :=
    match rem with
    | [] => Some 0
    | t :: r => match uni cp t, unis cp r with Some v, Some u => Some (N.lor v u) | _, _ => None end
    end.
  Lemma uni_value : forall t cp v, wf_at cp t -> uni cp t = Some v -> forall c, cp <= c <= cp + 63 -> range_value 0 t c = v.
  Proof.
    intros [|[[lo hi] w] t] cp v HW HU c Hc; [injection HU as <-; reflexivity|]. simpl in HW. destruct HW as (H1 & H2 & H3). cbn [uni] in HU. cbn [range_value].
    destruct (cp + 63 <? lo) eqn:E.
    - injection HU as <-. apply N.ltb_lt in E. replace (lo <=? c) with false by (symmetry; apply N.leb_gt; lia). cbn [andb].
      apply (ascending_below _ (hi + 1)); [exact H3|lia].
    - destruct ((lo <=? cp) && (cp + 63 <=? hi)) eqn:E2; [|discriminate]. injection HU as <-. apply andb_prop in E2. destruct E2 as [A B]. apply N.leb_le in A, B.
      replace (lo <=? c) with true by (symmetry; apply N.leb_le; lia). replace (c <=? hi) with true by (symmetry; apply N.leb_le; lia). reflexivity.
  Qed.
  Lemma uni_drop : forall t cp v, wf_at cp t -> uni cp t = Some v ->
    wf_at (cp + 64) (drop (cp + 63) t) /\ forall c, cp + 64 <= c -> range_value 0 (drop (cp + 63) t) c = range_value 0 t c.
  Proof.
    intros [|[[lo hi] w] t] cp v HW HU; [split; [exact I|reflexivity]|]. simpl in HW. destruct HW as (H1 & H2 & H3). cbn [uni] in HU. cbn [drop].
    destruct (hi <=? cp + 63) eqn:E.
    - apply N.leb_le in E. assert (hi = cp + 63).
      { destruct (cp + 63 <? lo) eqn:E2; [apply N.ltb_lt in E2; lia|]. destruct ((lo <=? cp) && (cp + 63 <=? hi)) eqn:E3; [|discriminate].
        apply andb_prop in E3. destruct E3 as [A B]. apply N.leb_le in A, B. lia. }
      subst hi. split; [apply ascending_wf; replace (cp + 64) with (cp + 63 + 1) by lia; exact H3|].
      intros c Hc. cbn [range_value]. replace (c <=? cp + 63) with false by (symmetry; apply N.leb_gt; lia). rewrite andb_false_r. reflexivity.
    - apply N.leb_gt in E. split; [|reflexivity]. simpl. repeat split; auto; lia.
  Qed.
  Lemma unis_ok : forall cp rem ts0, Forall2 (agrees cp) rem ts0 -> forall v, unis cp rem = Some v ->
    (forall c, cp <= c <= cp + 63 -> bits_of ts0 c = v) /\ Forall2 (agrees (cp + 64)) (map (drop (cp + 63)) rem) ts0.
  Proof.
    intros cp rem ts0 H. induction H as [|r t rem ts0 [H1 H2] H IH]; intros v HU.
    - injection HU as <-. split; [reflexivity|constructor].
    - cbn [unis] in HU. destruct (uni cp r) as [w|] eqn:E1; [|discriminate]. destruct (unis cp rem) as [u|] eqn:E2; [|discriminate].
      injection HU as <-. destruct (IH u eq_refl) as (I1 & I2). destruct (uni_drop r cp w H1 E1) as (D1 & D2). split.
      + intros c Hc. unfold bits_of in *. cbn [map fold_right]. rewrite I1 by exact Hc. rewrite <- H2 by lia. rewrite (uni_value r cp w H1 E1) by exact Hc. reflexivity.
      + cbn [map]. constructor; [|exact I2]. split; [exact D1|]. intros c Hc. rewrite D2 by exact Hc. apply H2. lia.
  Qed.

  Definition constant (i v : N) : bool :=
    forallb (fun c => match lookupValue values i c with Ok v' => v' =? v | _ => false end) conts.
  (** State: next code point, tables from there on, blocks of values known to be constant, verdict. *)
  Definition bstate := (N * list rtable * list (N * N) * bool)%type.
  Definition block_step (s : bstate) : bstate :=
    let '(cp, rem, memo, ok) := s in
    if ok then
      match (if (0x80 <=? cp) && negb ((0xD800 <=? cp) && (cp <? 0xE000)) then unis cp rem else None), leaf (N.shiftr cp 6) with
      | Some v, Ok i =>
        if existsb (fun p => (fst p =? i) && (snd p =? v)) memo then (cp + 64, map (drop (cp + 63)) rem, memo, true)
        else (cp + 64, map (drop (cp + 63)) rem, (i, v) :: memo, constant i v)
      | _, _ => let '(cp', rem', ok') := N.iter 64 (sweep_step lk) (cp, rem, true) in (cp', rem', memo, ok')
      end
    else (cp + 64, rem, memo, false).
  Definition bsweep : bool :=
    forallb (ascending 0) ts && snd (N.iter 0x4400 block_step (0, ts, [], true)).

  Definition b_inv (s : bstate) : Prop :=
    let '(cp, rem, memo, ok) := s in
    cp mod 0x40 = 0 /\ (ok = true -> sw_inv lk ts (cp, rem, true) /\ forall i v, In (i, v) memo -> constant i v = true).

  Lemma block_step_inv : forall s, fst (fst (fst s)) < 0x110000 -> b_inv s -> b_inv (block_step s) /\ fst (fst (fst (block_step s))) = fst (fst (fst s)) + 64.
  Proof.
    intros [[[cp rem] memo] ok] Hcp (HM & HI). cbn [fst] in *.
    assert (HM' : (cp + 64) mod 0x40 = 0) by (rewrite <- N.add_mod_idemp_r by lia; change (64 mod 0x40) with 0; rewrite N.add_0_r; exact HM).
    unfold block_step. destruct ok; [|split; [split; [exact HM'|discriminate]|reflexivity]].
    destruct (HI eq_refl) as (HS & HMemo). clear HI.
    destruct (if (0x80 <=? cp) && negb ((0xD800 <=? cp) && (cp <? 0xE000)) then unis cp rem else None) as [v|] eqn:EU.
    2:{ pose proof (N.iter_invariant 64 _ (sweep_step lk) (sw_inv lk ts) (fun s => sweep_step_inv lk ts s) _ HS) as HS'.
        pose proof (sweep_cp lk 64 (cp, rem, true)) as HC. destruct (N.iter 64 _ _) as [[cp' rem'] ok']. cbn [fst] in *. subst cp'.
        split; [|reflexivity]. split; [exact HM'|]. intros ->. split; [exact HS'|exact HMemo]. }
    destruct ((0x80 <=? cp) && _) eqn:EB; [|discriminate]. apply andb_prop in EB. destruct EB as [EB _]. apply N.leb_le in EB.
    destruct (leaf (N.shiftr cp 6)) as [i| |] eqn:EL.
    2,3: pose proof (N.iter_invariant 64 _ (sweep_step lk) (sw_inv lk ts) (fun s => sweep_step_inv lk ts s) _ HS) as HS';
        pose proof (sweep_cp lk 64 (cp, rem, true)) as HC; destruct (N.iter 64 _ _) as [[cp' rem'] ok']; cbn [fst] in *; subst cp';
        (split; [|reflexivity]); (split; [exact HM'|]); intros ->; (split; [exact HS'|exact HMemo]).
    destruct (HS eq_refl) as (HF & HA). destruct (unis_ok _ _ _ HF v EU) as (HV & HF').
    assert (HK : constant i v = true -> sw_inv lk ts (cp + 64, map (drop (cp + 63)) rem, true)).
    { intros HC _. split; [exact HF'|]. intros c Hc. destruct (N.lt_ge_cases c cp) as [Hlt|Hge]; [apply HA; exact Hlt|].
      unfold check1. cbn zeta. rewrite HV by lia. rewrite utf8f_eq.
      assert (Hq : c / 0x40 = cp / 0x40).
      { pose proof (N.div_mod cp 0x40 ltac:(lia)) as HD. rewrite HM, N.add_0_r in HD. symmetry. apply (N.div_unique c 0x40 (cp / 0x40) (c - cp)); lia. }
      unfold constant in HC. rewrite forallb_forall in HC.
      assert (Hin : In (0x80 + c mod 0x40) conts). { apply in_upto. assert (HX : c mod 0x40 < 0x40) by (apply N.mod_lt; discriminate). revert HX. change (N.of_nat 64) with 64. generalize (c mod 0x40). intros; lia. }
      specialize (HC _ Hin). destruct (lookupValue values i (0x80 + c mod 0x40)) as [v'| |] eqn:EV; try discriminate. apply N.eqb_eq in HC. subst v'.
      assert (Hc3 : 0x80 <= c < 0x110000).
      { pose proof (N.div_mod cp 0x40 ltac:(lia)) as HD. rewrite HM, N.add_0_r in HD. assert (cp / 0x40 < 0x4400) by (apply N.div_lt_upper_bound; lia). lia. }
      rewrite (leaf_lookup c i v Hc3); [|rewrite Hq; rewrite N.shiftr_div_pow2 in EL; exact EL|exact EV].
      rewrite N.eqb_refl, Nat.eqb_refl. destruct (_ && _); reflexivity. }
    destruct (existsb _ memo) eqn:EM; cbn [fst].
    - split; [|reflexivity]. split; [exact HM'|]. intros _. split; [|exact HMemo]. apply HK.
      apply existsb_exists in EM. destruct EM as ([i' v'] & Hin & He). cbn [fst snd] in He. apply andb_prop in He. destruct He as [He1 He2].
      apply N.eqb_eq in He1, He2. subst. apply HMemo. exact Hin.
    - split; [|reflexivity]. split; [exact HM'|]. intros HC. split; [apply HK; exact HC|].
      intros i' v' [He|Hin]; [injection He as <- <-; exact HC|apply HMemo; exact Hin].
  Qed.

  Lemma bsweep_sound : bsweep = true -> forall c, c < 0x110000 -> check1 lk c (bits_of ts c) = true.
  Proof.
    intros H c Hc. unfold bsweep in H. apply andb_prop in H. destruct H as [HA HB].
    assert (HI : forall n, n <= 0x4400 -> b_inv (N.iter n block_step (0, ts, [], true)) /\ fst (fst (fst (N.iter n block_step (0, ts, [], true)))) = 64 * n).
    { induction n as [|n IH] using N.peano_ind; intros Hn.
      - split; [|reflexivity]. split; [reflexivity|]. intros _. split; [|intros i v []].
        intros _. split; [|intros; lia].
        rewrite forallb_forall in HA. clear HB Hn. induction ts as [|t ts0 IH]; constructor.
        + split; [|reflexivity]. apply ascending_wf. apply HA. left. reflexivity.
        + apply IH. intros x Hx. apply HA. right. exact Hx.
      - destruct (IH ltac:(lia)) as (I1 & I2). rewrite N.iter_succ.
        destruct (block_step_inv (N.iter n block_step (0, ts, [], true)) ltac:(rewrite I2; lia) I1) as (J1 & J2). split; [exact J1|]. rewrite J2, I2. lia. }
    destruct (HI 0x4400 ltac:(lia)) as (I1 & I2). destruct (N.iter 0x4400 block_step _) as [[[cp rem] memo] ok]. cbn [fst snd] in *.
    destruct I1 as (_ & I1). destruct (I1 HB) as (IS & _). destruct (IS eq_refl) as (_ & HK). apply HK. lia.
  Qed.
End Blocks.

(** Lifting to any continuation. *)
Lemma utf8_nonnil : forall cp, exists b s, utf8 cp = b :: s.
Proof. intros. unfold utf8. repeat match goal with |- context [if ?c then _ else _] => destruct c end; eauto. Qed.

Lemma sweep_lookup : forall values index V ts, tables_ok values index V = true -> bsweep values index ts = true ->
  forall cp rest, scalar cp -> lookup values index (utf8 cp ++ rest) = Ok (bits_of ts cp, length (utf8 cp)).
Proof.
  intros values index V ts HT HS cp rest Hsc.
  assert (Hlt : cp < 0x110000) by (destruct Hsc; lia).
  pose proof (bsweep_sound _ _ _ HS cp Hlt) as HC. unfold check1 in HC. cbn zeta in HC. rewrite utf8f_eq in HC.
  replace ((0xD800 <=? cp) && (cp <? 0xE000)) with false in HC.
  2:{ symmetry. apply andb_false_iff. destruct Hsc; [left; apply N.leb_gt; lia | right; apply N.ltb_ge; lia]. }
  destruct (utf8_nonnil cp) as (b & s & Hb). rewrite Hb in *.
  destruct (lookup_spec _ _ _ HT b s) as (v & w & Hl & _ & _ & _ & _ & _ & _ & Hst). rewrite Hl in HC.
  apply andb_prop in HC. destruct HC as [H1 H2]. apply N.eqb_eq in H1. apply Nat.eqb_eq in H2. subst v w.
  apply Hst. simpl. lia.
Qed.

Definition mapt {A} (f : A -> N) (t : list (N * N * A)) : rtable := map (fun r => (fst r, f (snd r))) t.
Lemma range_mapt : forall A (f : A -> N) (d : A) (t : list (N * N * A)) cp, f d = 0 -> range_value 0 (mapt f t) cp = f (range_value d t cp).
Proof.
  intros A f d t cp Hd. induction t as [|[[lo hi] v] t IH]; [symmetry; exact Hd|]. cbn [mapt map fst snd range_value].
  destruct ((lo <=? cp) && (cp <=? hi)); [reflexivity|exact IH].
Qed.
