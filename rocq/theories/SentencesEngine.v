(** sentences: the split function as an instance of the common loop, and its contract. *)
From Verif Require Import Base ListFacts Trie LookupFacts TableFacts Engine Lk Seek TableSentences.
From Verif Require Sentences.
Import Sentences.
Local Open Scope N_scope.

Record sst := { ss_current : N; ss_hist : shist }.

Definition s_erules (st : sst) (current : N) (d : bytes) (w : nat) (atEOF : bool) : res (edec sst) :=
  let last := ss_current st in
  let h := s_update last (ss_hist st) in
  dec <- s_rules d atEOF current last h 0 w ;;
  match dec with
  | SMore => Ok EMore
  | SBreak O => Ok EBreak
  | SBreak (S _) => Ok EEnd
  | SJoin adv => Ok (EJoin adv {| ss_current := current; ss_hist := h |})
  end.

Definition SE : eng := {|
  e_St := sst;
  e_lk0 := sentences_lookup;
  e_lk := sentences_lookup;
  e_init := fun v => {| ss_current := v; ss_hist := hist0 |};
  e_rules := s_erules
|}.

Lemma subsequent_gsub : forall props d b, subsequent props d b = gsubsequent sentences_lookup _Ignore props d b.
Proof. reflexivity. Qed.

Definition stopProps : N := N.lor _OLetter (N.lor _Upper (N.lor _Lower (N.lor _ParaSep _SATerm))).

(** sb8_scan on the remaining bytes. *)
Fixpoint rscan (fuel : nat) (d : bytes) (atEOF : bool) : res scan_out :=
  match fuel with
  | O => OutOfFuel
  | S fuel' =>
    if is_nil d then Ok (ScanAt 0)
    else
      ' (v, w) <- sentences_lookup d ;;
      if Nat.eqb w 0 then (if atEOF then Ok ScanEOF else Ok ScanMore)
      else if is v stopProps then Ok (ScanAt 0)
      else
        d' <- slice_from d w ;;
        sc <- rscan fuel' d' atEOF ;;
        match sc with
        | ScanAt p => Ok (ScanAt (w + p))
        | x => Ok x
        end
  end.

Definition shift_scan (i : nat) (sc : scan_out) : scan_out :=
  match sc with ScanAt p => ScanAt (i + p) | x => x end.

Lemma scan_rscan : forall fuel data atEOF p, (p <= length data)%nat -> (length data - p < fuel)%nat ->
  sb8_scan fuel data atEOF p = (sc <- rscan fuel (skipn p data) atEOF ;; Ok (shift_scan p sc)).
Proof.
  induction fuel as [|fuel IH]; intros data atEOF p Hp Hf; [lia|]. cbn [sb8_scan rscan].
  destruct (p <? length data)%nat eqn:E.
  - apply Nat.ltb_lt in E. rewrite slice_from_ok by lia. cbn [bind].
    rewrite (is_nil_false (skipn p data)) by (apply skipn_nonnil; lia).
    destruct (s_lk (skipn p data)) as (v & w & Hl & Hw & _); [apply skipn_nonnil; lia|]. rewrite Hl. cbn [bind].
    rewrite skipn_length in Hw.
    destruct (Nat.eqb w 0) eqn:E0; [destruct atEOF; reflexivity|]. apply Nat.eqb_neq in E0.
    fold stopProps. destruct (is v stopProps). { cbn [bind shift_scan]. rewrite Nat.add_0_r. reflexivity. }
    rewrite IH by lia. rewrite slice_from_ok by (rewrite skipn_length; lia). cbn [bind].
    rewrite skipn_skipn. replace (w + p)%nat with (p + w)%nat by lia.
    destruct (rscan fuel (skipn (p + w) data) atEOF) as [[q| |]| |]; cbn [bind shift_scan]; try reflexivity.
    rewrite Nat.add_assoc. reflexivity.
  - apply Nat.ltb_ge in E. rewrite skipn_all2 by lia. cbn [is_nil bind shift_scan]. rewrite Nat.add_0_r. reflexivity.
Qed.

Lemma rscan_fuel : forall f1 f2 d b, (length d < f1)%nat -> (length d < f2)%nat -> rscan f1 d b = rscan f2 d b.
Proof.
  induction f1 as [|f1 IH]; intros f2 d b H1 H2; [lia|]. destruct f2 as [|f2]; [lia|].
  destruct d as [|c d0]; [reflexivity|]. set (d := c :: d0) in *. assert (Hd : d <> []) by discriminate.
  cbn [rscan]. change (is_nil d) with false. cbv iota.
  destruct (s_lk d Hd) as (v & w & Hl & Hw & _). rewrite Hl. cbn [bind].
  destruct (Nat.eqb w 0) eqn:E0; [reflexivity|]. apply Nat.eqb_neq in E0.
  destruct (is v stopProps); [reflexivity|]. rewrite slice_from_ok by lia. cbn [bind].
  rewrite (IH f2); [reflexivity| |]; rewrite skipn_length; lia.
Qed.

Lemma rscan_total : forall fuel d b, (length d < fuel)%nat ->
  exists sc, rscan fuel d b = Ok sc
    /\ (forall p, sc = ScanAt p -> (p <= length d)%nat)
    /\ (sc = ScanEOF -> b = true /\ d <> []) /\ (sc = ScanMore -> b = false).
Proof.
  induction fuel as [|fuel IH]; intros d b Hf; [lia|].
  destruct d as [|c d0].
  { eexists; split; [reflexivity|]. repeat split; try discriminate. intros p H. injection H as <-. lia. }
  set (d := c :: d0) in *. assert (Hd : d <> []) by discriminate.
  cbn [rscan]. change (is_nil d) with false. cbv iota.
  destruct (s_lk d Hd) as (v & w & Hl & Hw & _). rewrite Hl. cbn [bind].
  destruct (Nat.eqb w 0) eqn:E0.
  { destruct b; eexists; (split; [reflexivity|]); repeat split; try discriminate; auto. }
  apply Nat.eqb_neq in E0.
  destruct (is v stopProps).
  { eexists; split; [reflexivity|]. repeat split; try discriminate. intros p H. injection H as <-. lia. }
  rewrite slice_from_ok by lia. cbn [bind].
  destruct (IH (skipn w d) b) as (sc & Hs & H1 & H2 & H3). { rewrite skipn_length. lia. }
  rewrite Hs. cbn [bind]. destruct sc as [p| |].
  - eexists; split; [reflexivity|]. repeat split; try discriminate. intros q H. injection H as <-.
    specialize (H1 _ eq_refl). rewrite skipn_length in H1. lia.
  - eexists; split; [reflexivity|]. repeat split; try discriminate; auto. apply H2; reflexivity.
  - eexists; split; [reflexivity|]. repeat split; try discriminate; auto.
Qed.

(** With data appended the scan can only move on when it had reached the end. *)
Lemma rscan_stable : forall fuel d p, rscan fuel d false = Ok (ScanAt p) -> (p < length d)%nat ->
  forall fuel' t b, (length (d ++ t) < fuel')%nat -> rscan fuel' (d ++ t) b = Ok (ScanAt p).
Proof.
  induction fuel as [|fuel IH]; intros d p H Hp fuel' t b Hf; [discriminate|].
  destruct d as [|c d0]; [simpl in Hp; lia|]. set (d := c :: d0) in *. assert (Hd : d <> []) by discriminate.
  cbn [rscan] in H. change (is_nil d) with false in H. cbv iota in H.
  destruct (s_lk d Hd) as (v & w & Hl & Hw & Hst). rewrite Hl in H. cbn [bind] in H.
  destruct (Nat.eqb w 0) eqn:E0; [discriminate|].
  destruct fuel' as [|fuel']; [lia|]. cbn [rscan]. change (is_nil (d ++ t)) with false. cbv iota.
  pose proof (proj1 (Nat.eqb_neq _ _) E0) as E1. rewrite (Hst E1). cbn [bind]. rewrite E0.
  destruct (is v stopProps); [exact H|].
  rewrite slice_from_ok in H by lia. rewrite slice_from_ok by (rewrite app_length; lia). cbn [bind] in H |- *.
  rewrite skipn_app_le by lia.
  destruct (rscan fuel (skipn w d) false) as [[q| |]| |] eqn:Er; try discriminate.
  cbn [bind] in H. injection H as <-.
  rewrite (IH _ _ Er); [reflexivity| |]; rewrite ?app_length, skipn_length; rewrite ?app_length in Hf; lia.
Qed.

(** The rules relative to the remaining bytes. *)
Definition shift_dec (i : nat) (dec : sdecision) : sdecision :=
  match dec with SJoin p => SJoin (i + p) | SBreak p => SBreak (i + p) | SMore => SMore end.

Lemma s_rules_tail_shift : forall current h pos w,
  s_rules_tail current h pos w = shift_dec pos (s_rules_tail current h 0 w).
Proof.
  intros. unfold s_rules_tail.
  repeat match goal with |- (if ?c then _ else _) = _ => destruct c end; cbn [shift_dec]; f_equal; lia.
Qed.

Lemma s_rules_shift : forall data b current last h pos w, (pos <= length data)%nat ->
  s_rules data b current last h pos w
  = (dec <- s_rules (skipn pos data) b current last h 0 w ;; Ok (shift_dec pos dec)).
Proof.
  intros data b current last h pos w Hp. unfold s_rules.
  do 6 (match goal with |- (if ?c then _ else _) = _ => destruct c end;
        [cbn [bind shift_dec]; do 2 f_equal; lia |]).
  destruct (is (h_lastExSpClose h) _ATerm).
  2:{ cbn [bind]. rewrite s_rules_tail_shift. reflexivity. }
  rewrite scan_rscan by lia. rewrite scan_rscan by lia. cbn [skipn].
  rewrite (rscan_fuel (S (length data)) (S (length (skipn pos data))))
    by (try rewrite skipn_length; lia).
  destruct (rscan_total (S (length (skipn pos data))) (skipn pos data) b ltac:(lia)) as (sc & Hs & H1 & _).
  rewrite Hs. cbn [bind].
  destruct sc as [p| |]; cbn [shift_scan].
  - specialize (H1 _ eq_refl). rewrite skipn_length in H1.
    rewrite slice_from_ok by lia. rewrite slice_from_ok by (rewrite skipn_length; lia). cbn [bind].
    rewrite skipn_skipn. replace (0 + p + pos)%nat with (pos + p)%nat by lia.
    rewrite subsequent_gsub.
    destruct (gsubsequent_total sentences_lookup _Ignore _Lower s_lk (skipn (pos + p) data) b) as (r & m & Hr & _).
    rewrite Hr. cbn [bind]. destruct m; [reflexivity|]. destruct r as [a|]; cbn [bind shift_dec].
    + do 2 f_equal. lia.
    + rewrite s_rules_tail_shift. reflexivity.
  - cbn [bind shift_dec]. rewrite skipn_length. do 2 f_equal. lia.
  - reflexivity.
Qed.

Lemma lower_exact : forall v, In v sV -> is v _Lower = true -> v = _Lower.
Proof.
  intros v Hv H.
  assert (Hall : forallb (fun v => negb (is v _Lower) || (v =? _Lower)) sV = true) by (vm_compute; reflexivity).
  rewrite forallb_forall in Hall. specialize (Hall v Hv). rewrite H in Hall. apply N.eqb_eq. exact Hall.
Qed.

Lemma s_lookup_in : forall d v w, sentences_lookup d = Ok (v, w) -> In v sV.
Proof.
  intros d v w H. destruct d as [|c0 s]; [discriminate|].
  destruct (lookup_spec _ _ _ s_tables_ok c0 s) as (v' & w' & Hl & HV & _).
  unfold sentences_lookup in H. rewrite H in Hl. injection Hl as <- <-. exact HV.
Qed.

Lemma update_lower : forall h, h_lastExSpClose (s_update _Lower h) = _Lower.
Proof. intros. reflexivity. Qed.

(** A lookahead hit at the first character means that this character is Lower. *)
Lemma sub_zero : forall d v w b m, d <> [] -> sentences_lookup d = Ok (v, w) -> w <> 0%nat ->
  gsubsequent sentences_lookup _Ignore _Lower d b = Ok (Some 0%nat, m) -> is v _Lower = true.
Proof.
  intros d v w b m Hd Hl Hw H. rewrite gsubsequent_rsub in H by exact s_lk. cbn [rsub] in H.
  rewrite (is_nil_false d Hd), Hl in H. cbn [bind] in H. rewrite (proj2 (Nat.eqb_neq _ _) Hw) in H.
  destruct (is v _Ignore).
  - destruct (slice_from d w) as [d'| |]; try discriminate. cbn [bind] in H.
    destruct (rsub _ _ _ _ d' b) as [[[r|] m']| |]; try discriminate. cbn [bind option_map] in H.
    injection H as H _. lia.
  - destruct (is v _Lower); [reflexivity|discriminate].
Qed.

Lemma s_rules_tail_total : forall current h w, exists dec, s_rules_tail current h 0 w = dec
  /\ (dec = SJoin w \/ dec = SBreak 0).
Proof.
  intros. eexists; split; [reflexivity|]. unfold s_rules_tail.
  repeat match goal with |- context [if ?c then _ else _] => destruct c end; auto.
Qed.

(** The rules on the remaining bytes: total, progressing, stable. *)
Lemma s_rules_total : forall d b v last h0 w, d <> [] -> sentences_lookup d = Ok (v, w) -> w <> 0%nat ->
  exists dec, s_rules d b v last (s_update last h0) 0 w = Ok dec
    /\ (forall p, dec = SJoin p -> (p <= length d)%nat /\ (p = 0%nat -> v = _Lower /\ last <> _Lower))
    /\ (forall p, dec = SBreak p -> p = 0%nat \/ (p = length d /\ b = true))
    /\ (dec = SMore -> b = false).
Proof.
  intros d b v last h0 w Hd Hl Hw. set (h := s_update last h0).
  destruct (s_lk d Hd) as (v' & w' & Hl' & Hle & _). rewrite Hl in Hl'. injection Hl' as <- <-.
  unfold s_rules.
  do 6 (match goal with |- context [if ?c then Ok ?x else _] => destruct c end;
        [eexists; split; [reflexivity|]; repeat split; try discriminate; intros;
         match goal with H : SJoin _ = SJoin _ |- _ => injection H as <-; lia
                       | H : SBreak _ = SBreak _ |- _ => injection H as <-; auto end |]).
  destruct (s_rules_tail_total v h w) as (dt & Hdt & Hcase).
  assert (Htail : exists dec, Ok (s_rules_tail v h 0 w) = Ok dec
    /\ (forall p, dec = SJoin p -> (p <= length d)%nat /\ (p = 0%nat -> v = _Lower /\ last <> _Lower))
    /\ (forall p, dec = SBreak p -> p = 0%nat \/ (p = length d /\ b = true))
    /\ (dec = SMore -> b = false)).
  { rewrite Hdt. exists dt. split; [reflexivity|]. destruct Hcase as [-> | ->]; repeat split; try discriminate; intros.
    - injection H as <-. lia.
    - injection H as <-. lia.
    - injection H as <-. lia.
    - injection H as <-. auto. }
  destruct (is (h_lastExSpClose h) _ATerm) eqn:EA; [|exact Htail].
  rewrite scan_rscan by lia. cbn [skipn].
  destruct (rscan_total (S (length d)) d b ltac:(lia)) as (sc & Hs & H1 & H2 & H3). rewrite Hs. cbn [bind].
  destruct sc as [p| |]; cbn [shift_scan].
  - specialize (H1 _ eq_refl). cbn [Nat.add]. rewrite slice_from_ok by lia. cbn [bind]. rewrite subsequent_gsub.
    destruct (gsubsequent_total sentences_lookup _Ignore _Lower s_lk (skipn p d) b) as (r & m & Hr & G1 & G2 & G3).
    rewrite Hr. cbn [bind]. destruct m.
    { eexists; split; [reflexivity|]. repeat split; try discriminate. intros. destruct b; [specialize (G1 eq_refl); discriminate|reflexivity]. }
    destruct r as [a|]; [|exact Htail].
    eexists; split; [reflexivity|]. specialize (G3 _ eq_refl). rewrite skipn_length in G3.
    assert (last <> _Lower) as Hnl.
    { intros ->. unfold h in EA. rewrite update_lower in EA. discriminate. }
    repeat split; try discriminate.
    + injection H as <-. lia.
    + injection H as <-. assert (p = 0 /\ a = 0)%nat as [-> ->] by lia. cbn [skipn] in Hr.
      apply lower_exact; [eapply s_lookup_in; exact Hl|]. eapply sub_zero; eauto.
    + exact Hnl.
  - destruct (H2 eq_refl) as [Hb Hd']. eexists; split; [reflexivity|]. repeat split; try discriminate.
    intros p Hp. injection Hp as <-. auto.
  - eexists; split; [reflexivity|]. repeat split; try discriminate. auto.
Qed.

Lemma s_rules_stable : forall d v last h w dec, d <> [] -> sentences_lookup d = Ok (v, w) -> w <> 0%nat ->
  s_rules d false v last h 0 w = Ok dec -> dec <> SMore ->
  forall t b, s_rules (d ++ t) b v last h 0 w = Ok dec.
Proof.
  intros d v last h w dec Hd Hl Hw H Hne t b. revert H. unfold s_rules.
  do 6 (match goal with |- context [if ?c then Ok ?x else _] => destruct c end; [tauto|]).
  destruct (is (h_lastExSpClose h) _ATerm); [|tauto].
  rewrite scan_rscan by lia. rewrite scan_rscan by lia. cbn [skipn].
  destruct (rscan_total (S (length d)) d false ltac:(lia)) as (sc & Hs & H1 & H2 & H3). rewrite Hs. cbn [bind].
  destruct sc as [p| |]; cbn [shift_scan Nat.add].
  - specialize (H1 _ eq_refl). rewrite slice_from_ok by lia. cbn [bind]. rewrite subsequent_gsub.
    destruct (gsubsequent_total sentences_lookup _Ignore _Lower s_lk (skipn p d) false) as (r & m & Hr & G1 & G2 & G3).
    rewrite Hr. cbn [bind]. destruct m; [intros H; injection H as <-; congruence|].
    destruct (Nat.eq_dec p (length d)) as [->|Hpn].
    { rewrite skipn_all in Hr. rewrite gsubsequent_rsub in Hr by exact s_lk. cbn in Hr. discriminate. }
    rewrite (rscan_stable _ _ _ Hs ltac:(lia)) by lia. cbn [bind shift_scan Nat.add].
    rewrite slice_from_ok by (rewrite app_length; lia). cbn [bind]. rewrite skipn_app_le by lia.
    rewrite subsequent_gsub. rewrite (gsubsequent_stable _ _ _ s_lk _ _ Hr t b). cbn [bind]. tauto.
  - destruct (H2 eq_refl); discriminate.
  - intros H. injection H as <-. congruence.
Qed.

Definition to_s (pos : nat) (st : sst) : sstate :=
  {| s_pos := pos; s_current := ss_current st; s_hist := ss_hist st |}.

Lemma s_loop_engine : forall fuel data atEOF pos st, (pos <= length data)%nat ->
  s_loop fuel data atEOF (to_s pos st)
  = (r <- eloop SE fuel (skipn pos data) atEOF st ;; Ok (option_map (fun n => (pos + n)%nat) r)).
Proof.
  induction fuel as [|fuel IH]; intros data atEOF pos st Hp; [reflexivity|].
  unfold to_s; cbn [s_loop eloop s_pos s_current s_hist].
  destruct (Nat.eqb pos (length data)) eqn:E.
  { apply Nat.eqb_eq in E. rewrite skipn_all2 by lia. cbn [is_nil].
    destruct atEOF; cbn [negb bind option_map]; [rewrite Nat.add_0_r|]; reflexivity. }
  apply Nat.eqb_neq in E. rewrite (is_nil_false (skipn pos data)) by (apply skipn_nonnil; lia).
  rewrite slice_from_ok by lia. cbn [bind].
  change (e_lk SE) with sentences_lookup.
  destruct (s_lk (skipn pos data)) as (v & w & Hl & Hw & _). { apply skipn_nonnil; lia. }
  rewrite Hl. cbn [bind]. destruct (Nat.eqb w 0) eqn:E0.
  { destruct atEOF; cbn [bind option_map]; [|reflexivity]. rewrite skipn_length. do 2 f_equal. lia. }
  rewrite skipn_length in Hw. apply Nat.eqb_neq in E0.
  change (e_rules SE) with s_erules. unfold s_erules. cbv zeta.
  rewrite s_rules_shift by lia.
  destruct (s_rules_total (skipn pos data) atEOF v (ss_current st) (ss_hist st) w) as (dec & Hr & Hj & Hb & _); auto.
  { apply skipn_nonnil; lia. }
  rewrite Hr. cbn [bind]. destruct dec as [adv|q|].
  3:{ reflexivity. }
  2:{ destruct (Hb _ eq_refl) as [-> | [-> _]]; cbn [shift_dec bind option_map].
      - rewrite Nat.add_0_r. reflexivity.
      - rewrite skipn_length. destruct (length data - pos)%nat as [|k] eqn:Ek; [lia|]. cbn [bind option_map].
        reflexivity. }
  destruct (Hj _ eq_refl) as [Ha _]. rewrite skipn_length in Ha.
  cbn [shift_dec bind]. rewrite slice_from_ok by (rewrite skipn_length; lia). cbn [bind].
  rewrite skipn_skipn. replace (adv + pos)%nat with (pos + adv)%nat by lia.
  specialize (IH data atEOF (pos + adv)%nat
    {| ss_current := v; ss_hist := s_update (ss_current st) (ss_hist st) |} ltac:(lia)).
  unfold to_s in IH; cbn [ss_current ss_hist] in IH. rewrite IH.
  destruct (eloop SE fuel (skipn (pos + adv) data) atEOF _) as [[n|]| |]; cbn [bind option_map]; try reflexivity.
  rewrite Nat.add_assoc. reflexivity.
Qed.

Definition s_fuel (data : bytes) : nat := (2 * length data + 2)%nat.

Lemma s_split_engine : forall data atEOF, esplit SE s_fuel data atEOF = splitFunc data atEOF.
Proof.
  intros data atEOF. unfold esplit, splitFunc. destruct data as [|c d0]; [reflexivity|].
  set (data := c :: d0). change (is_nil data) with false. cbv iota.
  rewrite slice_from_ok by lia. change (skipn 0 data) with data. cbn [bind].
  change (e_lk0 SE) with sentences_lookup.
  destruct (s_lk data ltac:(discriminate)) as (v & w & Hl & Hw & _). rewrite Hl. cbn [bind].
  destruct (Nat.eqb w 0) eqn:E0.
  { rewrite slice_to_ok by lia. rewrite firstn_all. cbn [bind]. destruct atEOF; reflexivity. }
  rewrite slice_from_ok by lia. cbn [bind].
  pose proof (s_loop_engine (2 * length data + 2) data atEOF w (e_init SE v) Hw) as H.
  change (to_s w (e_init SE v)) with {| s_pos := w; s_current := v; s_hist := hist0 |} in H.
  rewrite H.
  unfold s_fuel. destruct (eloop SE _ (skipn w data) atEOF _) as [[n|]| |]; reflexivity.
Qed.

Definition s_mu (st : sst) (d : bytes) : nat :=
  (2 * length d + (if N.eqb (ss_current st) _Lower then 0 else 1))%nat.

Lemma s_rules_ok : rules_ok SE s_mu.
Proof.
  intros st v d w Hd Hl Hw. change (e_lk SE) with sentences_lookup in Hl.
  change (e_rules SE) with s_erules. unfold s_erules. cbv zeta. split.
  - intros atEOF.
    destruct (s_rules_total d atEOF v (ss_current st) (ss_hist st) w Hd Hl Hw) as (dec & Hr & Hj & Hb & Hm).
    rewrite Hr. cbn [bind]. destruct dec as [adv|q|].
    + eexists; split; [reflexivity|]. split; [|split; discriminate].
      intros adv' st' He. injection He as <- <-. destruct (Hj _ eq_refl) as [Ha Hz]. split; [exact Ha|].
      unfold s_mu. cbn [ss_current]. rewrite skipn_length.
      destruct (Nat.eq_dec adv 0) as [->|Hn].
      * destruct (Hz eq_refl) as [-> Hl2]. rewrite N.eqb_refl.
        rewrite (proj2 (N.eqb_neq _ _) Hl2). lia.
      * destruct (v =? _Lower); destruct (ss_current st =? _Lower); lia.
    + destruct (Hb _ eq_refl) as [-> | [-> Ht]].
      * eexists; split; [reflexivity|]. repeat split; discriminate.
      * destruct d as [|c d0]; [congruence|]. cbn [length].
        eexists; split; [reflexivity|]. repeat split; try discriminate. auto.
    + eexists; split; [reflexivity|]. repeat split; try discriminate. auto.
  - intros dec H Hne t b.
    destruct (s_rules_total d false v (ss_current st) (ss_hist st) w Hd Hl Hw) as (dec' & Hr & _).
    rewrite Hr in H. cbn [bind] in H.
    rewrite (s_rules_stable d v _ _ w dec' Hd Hl Hw Hr).
    + exact H.
    + intros ->. injection H as <-. apply Hne. reflexivity.
Qed.

Theorem s_split_ok : split_ok splitFunc.
Proof.
  eapply split_ok_ext; [apply s_split_engine|].
  apply (esplit_ok SE s_mu s_fuel s_lk s_lk s_rules_ok).
  intros data v w _ Hw Hle. unfold s_mu, s_fuel. rewrite skipn_length.
  destruct (ss_current (e_init SE v) =? _Lower); lia.
Qed.
