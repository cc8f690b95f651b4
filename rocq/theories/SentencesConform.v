(** sentences: the rules as programmed agree, step by step, with the rules of UAX #29. *)
From Verif Require Import Base ListFacts Trie LookupFacts TableFacts Engine Lk Seek SeekText SpecUtf8 SpecUcd SpecLookup SpecIter SpecRules SpecSentences
  RuleFacts BitFacts WordFacts SentenceFacts Conform UcdFacts UcdSentences TableSentences SentencesEngine.
From Verif Require Sentences.
Import Sentences.
Local Open Scope N_scope.

Notation P := sentences_property.

Lemma P_in : forall c, In (P c) sV.
Proof. intros c. unfold sentences_property. destruct (SB c); cbn; tauto. Qed.

(** ** Classes as bits *)
Definition cls (r : re) (m : N) : Prop := forall c, spred r c = is (P c) m.
Ltac do_cls := intros c; unfold SpecSentences.CR, SpecSentences.LF, Sep, Sp, Lower, Upper, OLetter, Numeric, ATerm, STerm, SContinue, Close, ParaSep, SATerm, NotStop, para_sep;
  cbn [spred]; unfold ParaSep, SATerm, Sep, SpecSentences.CR, SpecSentences.LF, ATerm, STerm, para_sep; cbn [spred]; unfold sentences_property, sc; destruct (SB c); reflexivity.
Lemma c_CR : cls SpecSentences.CR _CR. Proof. do_cls. Qed.
Lemma c_LF : cls SpecSentences.LF _LF. Proof. do_cls. Qed.
Lemma c_PA : forall c, PA c = is (P c) _ParaSep. Proof. unfold PA. do_cls. Qed.
Lemma c_AT : forall c, AT c = is (P c) _ATerm. Proof. unfold AT. do_cls. Qed.
Lemma c_SAT : forall c, SAT c = is (P c) _SATerm. Proof. unfold SAT. do_cls. Qed.
Lemma c_CL : forall c, CL c = is (P c) _Close. Proof. unfold CL. do_cls. Qed.
Lemma c_SP : forall c, SP c = is (P c) _Sp. Proof. unfold SP. do_cls. Qed.
Lemma c_NU : cls Numeric _Numeric. Proof. do_cls. Qed.
Lemma c_UP : cls Upper _Upper. Proof. do_cls. Qed.
Lemma c_LO : cls Lower _Lower. Proof. do_cls. Qed.
Lemma c_UL : cls (Alt Upper Lower) (N.lor _Upper _Lower). Proof. do_cls. Qed.
Lemma c_SC : cls (Alt SContinue SATerm) (N.lor _SContinue _SATerm). Proof. do_cls. Qed.
Lemma c_CSP : cls (Alt Close (Alt Sp ParaSep)) (N.lor _Close (N.lor _Sp _ParaSep)). Proof. do_cls. Qed.
Lemma c_SPP : cls (Alt Sp ParaSep) (N.lor _Sp _ParaSep). Proof. do_cls. Qed.
Lemma c_IG : forall c, ignored c = is (P c) _Ignore.
Proof. intros c. unfold ignored, sentences_property, sc. destruct (SB c); reflexivity. Qed.
Lemma c_PS : forall c, para_sep c = is (P c) _ParaSep.
Proof. intros c. unfold para_sep, sentences_property, sc. destruct (SB c); reflexivity. Qed.
Lemma c_NS : forall c, spred NotStop c = negb (is (P c) stopProps).
Proof. do_cls. Qed.

Definition val (o : option N) : N := match o with Some c => if ignored c then 0 else P c | None => 0 end.
Lemma on_val : forall p m, (forall c, p c = is (P c) m) -> N.land m _Ignore = 0 -> forall o, on p o = is (val o) m.
Proof.
  intros p m Hp Hm [c|]; cbn [on val]; [|reflexivity]. rewrite Hp, c_IG.
  destruct (is (P c) _Ignore) eqn:E; [|reflexivity].
  pose proof (P_in c) as Hi. revert E Hi. generalize (P c). intros v E Hi. unfold is in *. rewrite N.land_0_l. cbn.
  assert (HI : v = _Extend \/ v = _Format).
  { unfold sV in Hi. cbn [In] in Hi. repeat (destruct Hi as [<-|Hi]; [first [discriminate E | auto]|]). contradiction. }
  apply negb_false_iff. apply N.eqb_eq. apply N.bits_inj. intros k. rewrite N.land_spec, N.bits_0.
  apply (f_equal (fun n => N.testbit n k)) in Hm. rewrite N.land_spec, N.bits_0 in Hm.
  destruct (N.testbit v k) eqn:B; [|reflexivity]. cbn [andb].
  assert (N.testbit _Ignore k = true). { unfold _Ignore. rewrite N.lor_spec. destruct HI as [->| ->]; rewrite B; auto using orb_true_r. }
  rewrite H, andb_true_r in Hm. exact Hm.
Qed.

(** ** The history *)
Definition canon (h : shist) : Prop :=
  (is (h_lastEx h) _Sp = false -> h_lastExSp h = h_lastEx h)
  /\ (is (h_lastEx h) _Close = false -> h_lastExClose h = h_lastEx h)
  /\ (is (h_lastExSp h) _Close = false -> h_lastExSpClose h = h_lastExSp h)
  /\ (is (h_lastExSpClose h) _ParaSep = false -> h_lastExParaSepSpClose h = h_lastExSpClose h).
Lemma update_canon : forall v h, canon (s_update v h).
Proof.
  intros v h. unfold canon, s_update. cbn [h_lastEx h_lastLastEx h_lastExSp h_lastExClose h_lastExSpClose h_lastExParaSepSpClose].
  repeat split; intros E; rewrite E; reflexivity.
Qed.
Lemma update_ignored : forall v h, canon h -> is v _Ignore = true -> s_update v h = h.
Proof.
  intros v h (H1 & H2 & H3 & H4) Hv. unfold s_update. rewrite Hv. cbn [negb].
  assert ((if negb (is (h_lastEx h) _Sp) then h_lastEx h else h_lastExSp h) = h_lastExSp h) as ->.
  { destruct (is (h_lastEx h) _Sp); [reflexivity|]. symmetry; auto. }
  assert ((if negb (is (h_lastEx h) _Close) then h_lastEx h else h_lastExClose h) = h_lastExClose h) as ->.
  { destruct (is (h_lastEx h) _Close); [reflexivity|]. symmetry; auto. }
  assert ((if negb (is (h_lastExSp h) _Close) then h_lastExSp h else h_lastExSpClose h) = h_lastExSpClose h) as ->.
  { destruct (is (h_lastExSp h) _Close); [reflexivity|]. symmetry; auto. }
  assert ((if negb (is (h_lastExSpClose h) _ParaSep) then h_lastExSpClose h else h_lastExParaSepSpClose h) = h_lastExParaSepSpClose h) as ->.
  { destruct (is (h_lastExSpClose h) _ParaSep); [reflexivity|]. symmetry; auto. }
  destruct h; reflexivity.
Qed.

Definition rel (h : shist) (t : str) : Prop :=
  h_lastEx h = val (t_lx t)
  /\ (is (h_lastEx h) _ATerm = true -> is (h_lastLastEx h) (N.lor _Upper _Lower) = is (val (t_ll t)) (N.lor _Upper _Lower))
  /\ is (h_lastExClose h) _ATerm = t_ac t /\ is (h_lastExClose h) _SATerm = t_sc t
  /\ is (h_lastExSpClose h) _ATerm = t_as t /\ is (h_lastExSpClose h) _SATerm = t_ss t.

(** ** The look-ahead of SB8 *)
Lemma lk_cp : forall x rest, scalar x -> sentences_lookup (utf8 x ++ rest) = Ok (P x, length (utf8 x)).
Proof. exact s_lookup_cp. Qed.

Lemma scan_text : forall a, scalars a -> exists a1 a2, a = a1 ++ a2
  /\ Forall (fun c => is (P c) stopProps = false) a1
  /\ (a2 = [] /\ low a = false \/ exists z r, a2 = z :: r /\ is (P z) stopProps = true /\ low a = is (P z) _Lower)
  /\ forall fuel, (length (encode a) < fuel)%nat -> rscan fuel (encode a) true = Ok (ScanAt (length (encode a1))).
Proof.
  induction a as [|c a IH]; intros Hs.
  - exists [], []. repeat split; auto. intros fuel Hf. destruct fuel; [lia|]. reflexivity.
  - inversion Hs as [|? ? Hc Hs']; subst. destruct (IH Hs') as (a1 & a2 & H1 & H2 & H3 & H4). clear IH.
    cbn [low]. rewrite c_LO, c_NS.
    assert (HL : forall fuel, (length (encode (c :: a)) < S fuel)%nat -> rscan (S fuel) (encode (c :: a)) true =
      if is (P c) stopProps then Ok (ScanAt 0)
      else (s <- rscan fuel (encode a) true ;; match s with ScanAt p => Ok (ScanAt (length (utf8 c) + p)) | x => Ok x end)).
    { intros fuel Hf. cbn [rscan]. rewrite encode_cons. destruct (utf8_nonnil c) as (b0 & s0 & Eu).
      assert (is_nil (utf8 c ++ encode a) = false) as -> by (rewrite Eu; reflexivity).
      rewrite lk_cp by exact Hc. cbn [bind]. rewrite Eu at 1. cbn [length Nat.eqb].
      destruct (is (P c) stopProps); [reflexivity|]. rewrite slice_from_ok by (rewrite app_length; lia). cbn [bind].
      rewrite skipn_app, skipn_all, Nat.sub_diag. reflexivity. }
    destruct (is (P c) stopProps) eqn:E.
    + exists [], (c :: a). split; [reflexivity|]. split; [constructor|]. split.
      * right. exists c, a. rewrite E. cbn [negb andb]. rewrite orb_false_r. auto.
      * intros fuel Hf. destruct fuel as [|fuel]; [lia|]. rewrite HL by exact Hf. reflexivity.
    + exists (c :: a1), a2. split; [rewrite H1; reflexivity|]. split; [constructor; auto|]. split.
      * assert (is (P c) _Lower = false) as ->.
        { unfold stopProps in E. rewrite !is_lor_r in E. destruct (is (P c) _Lower); [|reflexivity]. rewrite !orb_true_r in E. discriminate. }
        cbn [negb andb orb]. exact H3.
      * intros fuel Hf. destruct fuel as [|fuel]; [lia|]. rewrite HL by exact Hf.
        rewrite encode_cons, app_length in Hf. pose proof (utf8_len c). rewrite H4 by lia. cbn [bind].
        rewrite encode_cons, app_length. reflexivity.
Qed.

Lemma stop_sub : forall z r, scalars (z :: r) -> is (P z) stopProps = true ->
  gsubsequent sentences_lookup _Ignore _Lower (encode (z :: r)) true = Ok (if is (P z) _Lower then Some 0%nat else None, false).
Proof.
  intros z r Hs Hz.
  assert (HI : is (P z) _Ignore = false).
  { pose proof (P_in z) as Hi. revert Hz Hi. generalize (P z). intros v Hz Hi. unfold sV in Hi. cbn [In] in Hi.
    repeat (destruct Hi as [<-|Hi]; [first [reflexivity | discriminate Hz]|]). contradiction. }
  destruct (seek_text sentences_lookup _Ignore P s_lk lk_cp (z :: r) Hs) as (a1 & a2 & H1 & H2 & H3 & H4).
  rewrite H4. cbn [nextv]. unfold skipped. rewrite HI.
  destruct a1 as [|c a1]; [reflexivity|]. injection H1 as <- _. apply Forall_inv in H2. unfold skipped in H2. congruence.
Qed.

(** The rules on well-formed text, with the lookahead resolved. *)
Definition s_flat (current last : N) (h : shist) (w k : nat) (F : bool) : sdecision :=
  if N.lor current last =? 0 then SJoin w
  else if is current _LF && is last _CR then SJoin w
  else if is last _ParaSep then SBreak 0
  else if is current (N.lor _Extend _Format) then SJoin w
  else if is current _Numeric && is (h_lastEx h) _ATerm then SJoin w
  else if is current _Upper && is (h_lastEx h) _ATerm && is (h_lastLastEx h) (N.lor _Upper _Lower) then SJoin w
  else if is (h_lastExSpClose h) _ATerm && F then SJoin k
  else s_rules_tail current h 0 w.

Lemma s_rules_flat : forall a a1 a2 current last h w, scalars a -> a = a1 ++ a2 ->
  (a2 = [] /\ low a = false \/ exists z r, a2 = z :: r /\ is (P z) stopProps = true /\ low a = is (P z) _Lower) ->
  (forall fuel, (length (encode a) < fuel)%nat -> rscan fuel (encode a) true = Ok (ScanAt (length (encode a1)))) ->
  s_rules (encode a) true current last h 0 w = Ok (s_flat current last h w (length (encode a1)) (low a)).
Proof.
  intros a a1 a2 current last h w Hs Ha H2 Hsc. unfold s_rules, s_flat. cbn [Nat.add].
  do 6 (match goal with |- (if ?c then _ else _) = _ => destruct c; [reflexivity|] end).
  destruct (is (h_lastExSpClose h) _ATerm); [|reflexivity]. cbn [andb].
  rewrite scan_rscan by lia. cbn [skipn]. rewrite Hsc by lia. cbn [bind shift_scan Nat.add].
  rewrite slice_from_ok by (rewrite Ha, encode_app, app_length; lia). cbn [bind]. rewrite Ha at 1. rewrite skipn_encode.
  rewrite subsequent_gsub. destruct H2 as [[-> ->]|(z & r & -> & Hz & ->)].
  - change (encode []) with (@nil N). rewrite gsubsequent_rsub by exact s_lk. reflexivity.
  - rewrite stop_sub; auto.
    2:{ rewrite Ha in Hs. apply Forall_app in Hs. tauto. }
    cbn [bind]. destruct (is (P z) _Lower); [|reflexivity]. rewrite Nat.add_0_r. reflexivity.
Qed.

(** ** Steps that agree *)
Definition joins (d : sdecision) : bool := match d with SJoin _ => true | _ => false end.

Lemma zero_no : forall t x y F, t_l t = Some x -> t_lx t = Some x -> P x = 0 -> P y = 0 ->
  t_as t = false -> t_sc t = false -> t_ss t = false -> t_sp t = false -> s_dec t y F = Join.
Proof.
  intros t x y F H1 H2 Hx Hy H3 H4 H5 H6. unfold s_dec, s_dec1, s_dec2. rewrite H1, H2, H3, H4, H5, H6. cbn [on].
  rewrite c_CR, c_PA, c_IG, c_AT, Hx, Hy. reflexivity.
Qed.

Lemma flat_agrees : forall b0 x y h w k F, let t := strack (b0 ++ [x]) in rel h t ->
  s_dec t y F = if joins (s_flat (P y) (P x) h w k F) then Join else Break.
Proof.
  intros b0 x y h w k F t (R1 & R2 & R3 & R4 & R5 & R6).
  destruct (strack_facts (b0 ++ [x])) as (HL & _). rewrite last_char_snoc in HL.
  destruct (strack_inv (b0 ++ [x])) as (I1 & I2 & I3 & I4 & I5 & I6 & I7 & I8). fold t in HL, I1, I2, I3, I4, I5, I6, I7, I8.
  unfold s_flat. destruct (N.lor (P y) (P x) =? 0) eqn:E0.
  { rewrite lor_zero in E0. apply andb_prop in E0. destruct E0 as [Ey Ex]. apply N.eqb_eq in Ey, Ex. cbn [joins].
    assert (HT : t = {| t_l := Some x; t_lx := Some x; t_ll := t_lx (strack b0); t_ac := false; t_as := false; t_sc := false; t_ss := false; t_sp := false |}).
    { unfold t. rewrite strack_snoc. unfold sstep, drops. rewrite c_IG, c_AT, c_SAT, c_CL, c_SP, c_PA, Ex. reflexivity. }
    apply (zero_no t x y F); auto; rewrite HT; auto. }
  clear E0. unfold s_dec, s_dec1, s_dec2. rewrite HL. cbn [on].
  rewrite (on_val AT _ATerm c_AT eq_refl), (on_val (spred (Alt Upper Lower)) _ c_UL eq_refl).
  rewrite c_CR, c_LF, c_PA, c_IG, c_NU, c_UP, c_SC, c_CSP, c_SPP. rewrite <- R1.
  rewrite (andb_comm (is (P x) _CR)). destruct (is (P y) _LF && is (P x) _CR); [reflexivity|].
  destruct (is (P x) _ParaSep) eqn:EP; [reflexivity|].
  unfold _Ignore. destruct (is (P y) (N.lor _Extend _Format)); [reflexivity|].
  rewrite (andb_comm (is (h_lastEx h) _ATerm) (is (P y) _Numeric)). destruct (is (P y) _Numeric && is (h_lastEx h) _ATerm); [reflexivity|].
  assert (is (h_lastEx h) _ATerm && is (val (t_ll t)) (N.lor _Upper _Lower) && is (P y) _Upper
    = is (P y) _Upper && is (h_lastEx h) _ATerm && is (h_lastLastEx h) (N.lor _Upper _Lower)) as ->.
  { destruct (is (h_lastEx h) _ATerm); [rewrite <- R2 by reflexivity|]; cbn [andb]; destruct (is (P y) _Upper); cbn [andb]; rewrite ?andb_false_r, ?andb_true_r; reflexivity. }
  destruct (is (P y) _Upper && is (h_lastEx h) _ATerm && is (h_lastLastEx h) (N.lor _Upper _Lower)); [reflexivity|].
  rewrite <- R5. destruct (is (h_lastExSpClose h) _ATerm && F); [reflexivity|].
  unfold s_rules_tail. rewrite <- R6, <- R4.
  rewrite (andb_comm (is (h_lastExSpClose h) _SATerm) (is (P y) (N.lor _SContinue _SATerm))).
  destruct (is (P y) (N.lor _SContinue _SATerm) && _); [reflexivity|].
  rewrite (andb_comm (is (h_lastExClose h) _SATerm)). destruct (is (P y) (N.lor _Close (N.lor _Sp _ParaSep)) && _); [reflexivity|].
  rewrite (andb_comm (is (h_lastExSpClose h) _SATerm) (is (P y) (N.lor _Sp _ParaSep))). destruct (is (P y) (N.lor _Sp _ParaSep) && _); [reflexivity|].
  assert (EX : is (h_lastEx h) _ParaSep = false).
  { rewrite R1, <- (on_val PA _ParaSep c_PA eq_refl). destruct (on PA (t_lx t)) eqn:E; [|reflexivity].
    specialize (I5 eq_refl). rewrite HL in I5. cbn [on] in I5. rewrite c_PA in I5. congruence. }
  assert (ES : t_sp t = false).
  { destruct (t_sp t) eqn:E; [|reflexivity]. specialize (I6 eq_refl). rewrite (on_val PA _ParaSep c_PA eq_refl), <- R1 in I6. congruence. }
  rewrite EX, ES. cbn [andb]. rewrite !orb_false_r.
  rewrite (on_val SAT _SATerm c_SAT eq_refl), (on_val CL _Close c_CL eq_refl), (on_val SP _Sp c_SP eq_refl), <- R1 in I4.
  rewrite R4, R6. rewrite <- I4. destruct (t_ss t); reflexivity.
Qed.

(** After a character that is not ignored. *)
Lemma sstep_kept : forall t y, is (P y) _Ignore = false -> sstep t y =
  {| t_l := Some y; t_lx := Some y; t_ll := t_lx t;
     t_ac := AT y || CL y && t_ac t; t_as := (AT y || CL y && t_ac t) || SP y && t_as t;
     t_sc := SAT y || CL y && t_sc t; t_ss := (SAT y || CL y && t_sc t) || SP y && t_ss t; t_sp := PA y && t_ss t |}.
Proof. intros t y H. unfold sstep, drops. rewrite c_IG, H. reflexivity. Qed.

Lemma close_exact : forall v, In v sV -> is v _Close = true -> v = _Close.
Proof.
  intros v Hi Hp. unfold sV in Hi. cbn [In] in Hi.
  repeat (destruct Hi as [<-|Hi]; [first [reflexivity | discriminate Hp]|]). contradiction.
Qed.

Lemma close_key : forall b0 x y F, let t := strack (b0 ++ [x]) in CL y = true ->
  s_dec t y F = Join -> t_as t && F = false -> t_as t = t_ac t /\ t_ss t = t_sc t.
Proof.
  intros b0 x y F t Hy HJ HF.
  destruct (strack_inv (b0 ++ [x])) as (I1 & I2 & I3 & I4 & I5 & I6 & I7 & I8). fold t in I1, I2, I3, I4, I5, I6, I7, I8.
  destruct (strack_facts (b0 ++ [x])) as (HL & _). rewrite last_char_snoc in HL. fold t in HL.
  assert (Pc : P y = _Close) by (apply close_exact; [apply P_in|rewrite <- c_CL; exact Hy]).
  revert HJ. unfold s_dec, s_dec1. rewrite HL. cbn [on]. rewrite c_CR, c_LF, c_PA, c_IG, Pc. change (is _Close _LF) with false. rewrite andb_false_r.
  destruct (is (P x) _ParaSep) eqn:EP; [discriminate|]. change (is _Close _Ignore) with false. cbv iota. unfold s_dec2.
  rewrite c_NU, c_UP, c_SC, c_CSP, c_SPP, Pc. change (is _Close _Numeric) with false. change (is _Close _Upper) with false.
  rewrite !andb_false_r. rewrite HF.
  rewrite ?andb_false_r, ?andb_true_r.
  destruct (t_sc t) eqn:Esc.
  - intros _. auto.
  - destruct (t_ss t) eqn:Ess; [discriminate|]. intros _.
    split; [|reflexivity]. destruct (t_as t); [specialize (I2 eq_refl); congruence|]. destruct (t_ac t); [specialize (I1 eq_refl); congruence|reflexivity].
Qed.

Lemma rel_kept : forall h t y, canon h -> rel h t -> is (P y) _Ignore = false ->
  (CL y = true -> t_as t = t_ac t /\ t_ss t = t_sc t) -> rel (s_update (P y) h) (sstep t y).
Proof.
  intros h t y (C1 & C2 & C3 & _) (R1 & R2 & R3 & R4 & R5 & R6) HI KEY. rewrite sstep_kept by exact HI.
  unfold rel. cbn [t_lx t_ll t_ac t_as t_sc t_ss]. cbn [val]. rewrite c_IG, HI. rewrite c_AT, c_SAT, c_CL, c_SP in *.
  unfold s_update. rewrite HI. cbn [negb h_lastEx h_lastLastEx h_lastExSp h_lastExClose h_lastExSpClose].
  split; [reflexivity|]. split; [intros _; rewrite R1; reflexivity|].
  assert (HSC : (if negb (is (h_lastExSp h) _Close) then h_lastExSp h else h_lastExSpClose h) = h_lastExSpClose h).
  { destruct (is (h_lastExSp h) _Close); [reflexivity|]. symmetry; auto. }
  destruct (is (P y) _Close) eqn:EC.
  { rewrite (close_exact _ (P_in y) EC). change (is _Close _Sp) with false. cbn [negb]. change (is _Close _Close) with true. cbn [negb].
    change (is _Close _ATerm) with false. change (is _Close _SATerm) with false. cbn [orb andb]. rewrite !orb_false_r.
    destruct (KEY eq_refl) as [K1 K2]. rewrite R3, R4, R5, R6. auto. }
  cbn [negb andb]. rewrite !orb_false_r. destruct (is (P y) _Sp) eqn:ES.
  { cbn [negb]. rewrite HSC. rewrite R5, R6.
    destruct (sp_only y) as (A & B & _); [rewrite c_SP; exact ES|]. rewrite c_AT in A. rewrite c_SAT in B. rewrite A, B. auto. }
  cbn [negb]. rewrite EC. cbn [negb andb]. rewrite !orb_false_r. auto.
Qed.

Lemma rel_ignored : forall h t y, canon h -> rel h t -> is (P y) _Ignore = true -> on PA (t_l t) = false -> t_l t <> None ->
  rel (s_update (P y) h) (sstep t y).
Proof.
  intros h t y HC HR HI HP HN. rewrite update_ignored by assumption. unfold sstep, drops. rewrite c_IG, HI.
  destruct (t_l t) as [l|]; [|congruence]. cbn [on] in HP. rewrite c_PA in HP. rewrite c_PS, HP. exact HR.
Qed.

(** ** The states that occur *)
Definition s_norm (st : sst) (b : text) : Prop :=
  exists b0 x, b = b0 ++ [x] /\ ss_current st = P x /\ rel (s_update (P x) (ss_hist st)) (strack b).
(** After SB8 has skipped to a lower-case letter. *)
Definition s_jump (st : sst) (b a : text) : Prop :=
  exists z r, a = z :: r /\ is (P z) _Lower = true /\ sentence_decides b a Join
    /\ (ss_current st = _Lower
        \/ In (ss_current st) sV /\ is (ss_current st) stopProps = false /\ is (ss_current st) _Ignore = false
           /\ is (h_lastExSpClose (ss_hist st)) _ATerm = true /\ canon (ss_hist st)).
Definition s_Sim (st : sst) (b a : text) : Prop := s_norm st b \/ s_jump st b a.

(** A state in which the last character is a lower-case letter. *)
Lemma lower_norm : forall b z h, is (P z) _Lower = true -> s_norm {| ss_current := P z; ss_hist := h |} (b ++ [z]).
Proof.
  intros b z h Hz. exists b, z. split; [reflexivity|]. split; [reflexivity|]. cbn [ss_hist].
  assert (E : P z = _Lower) by (apply lower_exact; [apply P_in|exact Hz]).
  rewrite strack_snoc, sstep_kept by (rewrite E; reflexivity). unfold rel. cbn [t_lx t_ll t_ac t_as t_sc t_ss val].
  rewrite c_IG, c_AT, c_SAT, c_CL, c_SP, E. cbn. repeat split; auto. discriminate.
Qed.

(** ** Start of a segment *)
Lemma para_last : forall b l, PA l = true -> let t := strack (b ++ [l]) in
  t_lx t = Some l /\ t_ac t = false /\ t_as t = false /\ t_sc t = false /\ t_ss t = false.
Proof.
  intros b l H. cbv zeta. rewrite c_PA in H. rewrite strack_snoc. revert H. unfold sstep, drops. rewrite c_IG, c_AT, c_SAT, c_CL, c_SP, c_PA.
  pose proof (P_in l) as Hi. revert Hi. generalize (P l). intros v Hi H. unfold sV in Hi. cbn [In] in Hi.
  repeat (destruct Hi as [<-|Hi]; [first [discriminate H | cbn; auto]|]). contradiction.
Qed.

Lemma s_start : forall b x a, b = [] \/ sentence_decides b (x :: a) Break -> let t := strack b in
  (is (P x) _Ignore = true -> drops ignored para_sep (t_l t) x = false)
  /\ (is (P x) _Close = true -> t_sc t = false /\ t_ac t = false)
  /\ (is (P x) _Sp = true -> t_ss t = false /\ t_as t = false)
  /\ (is (P x) _ATerm = true -> is (val (t_lx t)) (N.lor _Upper _Lower) = false).
Proof.
  intros b x a HB t. destruct b as [|l b _] using rev_ind.
  { cbn. unfold drops. rewrite andb_false_r. auto 10. }
  assert (HD : s_dec t x (low (x :: a)) = Break).
  { destruct HB as [HB|HB]; [destruct b; discriminate|]. exact (sentence_fun _ _ _ _ (sentence_spec b l x a) HB). }
  clear HB. destruct (strack_inv (b ++ [l])) as (I1 & I2 & I3 & I4 & I5 & I6 & I7 & I8). fold t in I1, I2, I3, I4, I5, I6, I7, I8.
  destruct (strack_facts (b ++ [l])) as (HL & _). rewrite last_char_snoc in HL. fold t in HL.
  destruct (PA l) eqn:EP.
  { destruct (para_last b l EP) as (H1 & H2 & H3 & H4 & H5). fold t in H1, H2, H3, H4, H5. rewrite HL, H1, H2, H3, H4, H5.
    split; [|split; [|split]]; auto.
    - intros _. unfold drops. rewrite c_PS, <- c_PA, EP. apply andb_false_r.
    - intros _. rewrite <- (on_val (spred (Alt Upper Lower)) _ c_UL eq_refl). cbn [on]. rewrite c_UL. rewrite c_PA in EP. revert EP.
      pose proof (P_in l) as Hi. revert Hi. generalize (P l). intros v Hi H. unfold sV in Hi. cbn [In] in Hi.
      repeat (destruct Hi as [<-|Hi]; [first [discriminate H | reflexivity]|]). contradiction. }
  revert HD. unfold s_dec, s_dec1. rewrite HL. cbn [on]. rewrite EP.
  destruct (spred SpecSentences.CR l && spred SpecSentences.LF x); [discriminate|]. destruct (ignored x) eqn:EI; [discriminate|].
  rewrite c_IG in EI. intros HD. split; [congruence|].
  assert (Esp : t_sp t = false).
  { destruct (t_sp t) eqn:E; [|reflexivity]. specialize (I5 (I6 eq_refl)). rewrite HL in I5. cbn [on] in I5. congruence. }
  revert HD. unfold s_dec2. rewrite c_SC, c_CSP, c_SPP, Esp. rewrite orb_false_r. intros HD.
  repeat match type of HD with (if ?c then Join else _) = Break => destruct c eqn:?; [discriminate HD|] end.
  destruct (t_ss t) eqn:Ess; [|discriminate]. cbn [andb] in *.
  split; [|split].
  - intros HX. rewrite !is_lor_r, HX in *. rewrite orb_true_l, andb_true_r in *. split; [assumption|].
    destruct (t_ac t); [|reflexivity]. specialize (I1 eq_refl). congruence.
  - intros HX. rewrite !is_lor_r, HX in *. discriminate.
  - intros HX. unfold _SATerm in *. rewrite !is_lor_r, HX in *. rewrite !orb_true_r in *. discriminate.
Qed.

Lemma s_INIT : forall b x a, scalars (b ++ x :: a) -> (b = [] \/ sentence_decides b (x :: a) Break) -> s_Sim (e_init SE (P x)) (b ++ [x]) a.
Proof.
  intros b x a Hs HB. left. exists b, x. split; [reflexivity|]. split; [reflexivity|]. cbn [e_init SE ss_hist].
  destruct (s_start b x a HB) as (K1 & K2 & K3 & K4). rewrite strack_snoc. set (t := strack b) in *.
  unfold sstep. assert (drops ignored para_sep (t_l t) x = false) as ->.
  { destruct (is (P x) _Ignore) eqn:E; [auto|]. unfold drops. rewrite c_IG, E. reflexivity. }
  unfold rel. cbn [t_lx t_ll t_ac t_as t_sc t_ss]. rewrite c_AT, c_SAT, c_CL, c_SP. cbn [val]. rewrite c_IG.
  pose proof (P_in x) as Hi. revert Hi K2 K3 K4. generalize (P x). intros v Hi K2 K3 K4.
  destruct (is v _Ignore) eqn:EI.
  { unfold s_update. rewrite EI. cbn. unfold sV in Hi. cbn [In] in Hi. repeat (destruct Hi as [<-|Hi]; [first [discriminate EI | cbn; repeat split; auto; discriminate]|]). contradiction. }
  destruct (is v _Close) eqn:EC.
  { destruct (K2 eq_refl) as [-> ->]. rewrite (close_exact _ Hi EC). cbn. repeat split; auto. discriminate. }
  destruct (is v _Sp) eqn:ES.
  { destruct (K3 eq_refl) as [-> ->]. unfold s_update. unfold sV in Hi. cbn [In] in Hi.
    repeat (destruct Hi as [<-|Hi]; [first [discriminate ES | cbn; repeat split; auto; discriminate]|]). contradiction. }
  unfold s_update. rewrite EI. cbn [negb h_lastEx h_lastLastEx h_lastExSp h_lastExClose h_lastExSpClose hist0]. rewrite ES. cbn [negb]. rewrite EC. cbn [negb andb orb].
  rewrite !orb_false_r. repeat split; auto. intros HA. rewrite (K4 HA). reflexivity.
Qed.

(** ** The jump of SB8 *)
Definition s_even (t : str) : Prop := t_ss t = t_as t /\ t_sc t = t_ac t /\ on PA (t_l t) = false /\ t_l t <> None.
Lemma nonstop_bits : forall v, is v stopProps = false ->
  is v _ATerm = false /\ is v _SATerm = false /\ is v _ParaSep = false /\ is v _Lower = false /\ is v _Upper = false.
Proof.
  intros v H. unfold stopProps in H. rewrite !(is_lor_r v) in H.
  repeat (apply orb_false_elim in H; destruct H as [? H]). repeat split; auto.
  unfold _SATerm in H. rewrite is_lor_r in H. apply orb_false_elim in H. tauto.
Qed.
Lemma even_step : forall t y, s_even t -> is (P y) stopProps = false -> s_even (sstep t y).
Proof.
  intros t y (H1 & H2 & H3 & H4) Hy. destruct (nonstop_bits _ Hy) as (N1 & N2 & N3 & _). unfold sstep.
  destruct (drops _ _ _ _); unfold s_even; cbn [t_l t_lx t_ac t_as t_sc t_ss on]; rewrite c_PA; repeat split; auto; try discriminate;
    rewrite c_AT, c_SAT, N1, N2; cbn [orb]; rewrite H2; [rewrite H1|]; reflexivity.
Qed.
Lemma even_track : forall p b, s_even (strack b) -> Forall (fun c => is (P c) stopProps = false) p -> s_even (strack (b ++ p)).
Proof.
  induction p as [|c p IH]; intros b HE HF; [rewrite app_nil_r; exact HE|].
  replace (b ++ c :: p) with ((b ++ [c]) ++ p) by (rewrite <- app_assoc; reflexivity).
  apply IH; [|exact (Forall_inv_tail HF)]. rewrite strack_snoc. apply even_step; [exact HE|exact (Forall_inv HF)].
Qed.
Lemma even_join : forall b y a, b <> [] -> s_even (strack b) -> low (y :: a) = true -> sentence_decides b (y :: a) Join.
Proof.
  intros b y a Hb (H1 & H2 & H3 & H4) HF. destruct b as [|x b _] using rev_ind; [congruence|].
  pose proof (sentence_spec b x y a) as HS. set (t := strack (b ++ [x])) in *.
  assert (E : s_dec t y (low (y :: a)) = Join); [|rewrite E in HS; exact HS].
  destruct (strack_inv (b ++ [x])) as (_ & _ & _ & _ & I5 & I6 & _ & _). fold t in I5, I6.
  unfold s_dec, s_dec1. rewrite H3. destruct (_ && _); [reflexivity|]. destruct (ignored y); [reflexivity|]. unfold s_dec2. rewrite HF, andb_true_r.
  destruct (t_sp t) eqn:E; [specialize (I5 (I6 eq_refl)); congruence|].
  rewrite H1. destruct (t_as t); cbn [andb orb];
  repeat match goal with |- (if ?c then Join else _) = Join => destruct c; [reflexivity|] end; reflexivity.
Qed.

Lemma low_app : forall a1 a2, Forall (fun c => is (P c) stopProps = false) a1 -> low a2 = true -> low (a1 ++ a2) = true.
Proof.
  induction a1 as [|c a1 IH]; intros a2 HF HL; [exact HL|]. cbn [app low]. rewrite c_NS, (Forall_inv HF). cbn [negb andb].
  rewrite (IH a2 (Forall_inv_tail HF) HL). apply orb_true_r.
Qed.

Lemma flat_cases : forall current last h w k F, In current sV -> let d := s_flat current last h w k F in
  d = SBreak 0
  \/ d = SJoin w /\ (is current _Close = true -> is (h_lastExSpClose h) _ATerm && F = false)
  \/ d = SJoin k /\ is (h_lastExSpClose h) _ATerm = true /\ F = true /\ is last _ParaSep = false /\ is current _Ignore = false.
Proof.
  intros current last h w k F Hi d. unfold d, s_flat.
  destruct (is current _Close) eqn:EC.
  - rewrite (close_exact _ Hi EC). cbn [N.lor].
    assert (N.lor _Close last =? 0 = false) as ->. { rewrite lor_zero. reflexivity. }
    change (is _Close _LF) with false. cbn [andb]. destruct (is last _ParaSep); [auto|].
    change (is _Close (N.lor _Extend _Format)) with false. cbv iota. change (is _Close _Numeric) with false. cbn [andb].
    change (is _Close _Upper) with false. cbn [andb]. destruct (is (h_lastExSpClose h) _ATerm && F) eqn:E.
    + right; right. apply andb_prop in E. destruct E as [E1 E2]. auto.
    + destruct (s_rules_tail_total _Close h w) as (dt & Hd & [->| ->]); rewrite Hd; auto.
  - assert (HT : forall d', d' = SBreak 0 \/ d' = SJoin w -> d' = SBreak 0
      \/ d' = SJoin w /\ (false = true -> is (h_lastExSpClose h) _ATerm && F = false)
      \/ d' = SJoin k /\ is (h_lastExSpClose h) _ATerm = true /\ F = true /\ is last _ParaSep = false /\ is current _Ignore = false).
    { intros d' [->| ->]; [auto|]. right; left. split; [reflexivity|discriminate]. }
    destruct (N.lor current last =? 0); [auto|]. destruct (is current _LF && is last _CR); [auto|].
    destruct (is last _ParaSep); [auto|]. change (N.lor _Extend _Format) with _Ignore. destruct (is current _Ignore); [auto|].
    destruct (is current _Numeric && _); [auto|]. destruct (is current _Upper && _ && _); [auto|].
    destruct (is (h_lastExSpClose h) _ATerm) eqn:E1, F; cbn [andb]; [auto 10|..].
    all: apply HT; destruct (s_rules_tail_total current h w) as (dt & Hd & [->| ->]); rewrite Hd; auto.
Qed.

Lemma s_STEP : forall st b x a, scalars (b ++ x :: a) -> s_Sim st b (x :: a) ->
  exists dec, e_rules SE st (P x) (encode (x :: a)) (length (utf8 x)) true = Ok dec
    /\ match dec with
       | EBreak => sentence_decides b (x :: a) Break
       | EJoin adv st' => exists a1 a2, x :: a = a1 ++ a2 /\ adv = length (encode a1)
           /\ (forall p q, a1 = p ++ q -> q <> [] -> sentence_decides (b ++ p) (q ++ a2) Join) /\ s_Sim st' (b ++ a1) a2
       | _ => False
       end.
Proof.
  intros st b y a Hs HS. assert (Has : scalars (y :: a)) by (apply Forall_app in Hs; tauto).
  change (e_rules SE) with s_erules. unfold s_erules. cbv zeta.
  destruct (scan_text (y :: a) Has) as (a1 & a2 & Ea & Hns & Hst & Hscan).
  rewrite (s_rules_flat (y :: a) a1 a2 _ _ _ _ Has Ea Hst Hscan). cbn [bind].
  set (w := length (utf8 y)). set (k := length (encode a1)). set (F := low (y :: a)) in *.
  assert (ONE : forall b' q p (Q : text -> text -> Prop), [y] = p ++ q -> q <> [] -> Q b' (y :: a) -> Q (b' ++ p) (q ++ a)).
  { intros b' q p Q Hpq Hq HQ. destruct p as [|z p]; [cbn [app] in Hpq; subst q; rewrite app_nil_r; exact HQ|].
    injection Hpq as <- Hpq. symmetry in Hpq. apply app_eq_nil in Hpq. tauto. }
  assert (HW : w = length (encode [y])) by (unfold encode; cbn [map concat]; rewrite app_nil_r; reflexivity).
  destruct HS as [(b0 & x & -> & Hcur & HR)|(z & r & Ez & Hz & HJ & Hcur)].
  - rewrite Hcur. set (h := s_update (P x) (ss_hist st)) in *. set (t := strack (b0 ++ [x])) in *.
    assert (HC : canon h) by apply update_canon.
    pose proof (flat_agrees b0 x y h w k F HR) as HD. fold t in HD.
    pose proof (sentence_spec b0 x y a) as HSP. fold t in HSP. fold F in HSP.
    destruct (strack_facts (b0 ++ [x])) as (HL & _). rewrite last_char_snoc in HL. fold t in HL.
    destruct (flat_cases (P y) (P x) h w k F (P_in y)) as [E|[[E EK]|(E & E1 & E2 & E3 & E4)]]; cbv zeta in E; rewrite E in HD |- *; cbn [joins] in HD; rewrite HD in HSP.
    + eexists. split; [reflexivity|]. exact HSP.
    + eexists. split; [reflexivity|]. exists [y], a. split; [reflexivity|]. split; [exact HW|]. split.
      { intros p q Hpq Hq. apply (ONE _ _ _ (fun u v => sentence_decides u v Join) Hpq Hq HSP). }
      left. exists (b0 ++ [x]), y. split; [reflexivity|]. split; [reflexivity|]. cbn [ss_hist]. rewrite strack_snoc. fold t.
      destruct (is (P y) _Ignore) eqn:EI.
      * apply rel_ignored; auto; [|rewrite HL; discriminate].
        destruct (on PA (t_l t)) eqn:EP; [|reflexivity]. exfalso. revert HD. unfold s_dec, s_dec1. rewrite EP.
        destruct (spred SpecSentences.LF y) eqn:ELF; [|rewrite andb_false_r; discriminate].
        rewrite c_LF in ELF. pose proof (P_in y) as Hi. revert EI ELF Hi. generalize (P y). clear. intros v EI ELF Hi.
        unfold sV in Hi. cbn [In] in Hi. repeat (destruct Hi as [<-|Hi]; [first [discriminate EI | discriminate ELF]|]). contradiction.
      * apply rel_kept; auto. intros HCL. apply (close_key b0 x y F HCL HD). fold t. rewrite <- EK by (rewrite <- c_CL; exact HCL).
        destruct HR as (_ & _ & _ & _ & R5 & _). rewrite R5. reflexivity.
    + eexists. split; [reflexivity|].
      destruct Hst as [[_ Hlow]|(z & r & -> & Hzs & Hlow)]; [fold F in Hlow; congruence|]. fold F in Hlow. rewrite E2 in Hlow. symmetry in Hlow.
      assert (HEV : s_even t).
      { destruct (strack_inv (b0 ++ [x])) as (I1 & I2 & I3 & I4 & I5 & I6 & I7 & I8). fold t in I1, I2, I3, I4, I5, I6, I7, I8.
        destruct HR as (_ & _ & _ & _ & R5 & _). rewrite E1 in R5. symmetry in R5. rewrite R5 in *.
        split; [rewrite R5; auto|]. split; [|split].
        - destruct (t_sc t) eqn:Esc; [auto|]. destruct (t_ac t); [specialize (I1 eq_refl); congruence|reflexivity].
        - rewrite HL. cbn [on]. rewrite c_PA. exact E3.
        - rewrite HL. discriminate. }
      assert (HLz : low (z :: r) = true) by (cbn [low]; rewrite c_LO, Hlow; reflexivity).
      exists a1, (z :: r). split; [exact Ea|]. split; [reflexivity|]. split.
      { intros p q Hpq Hq. destruct q as [|i q]; [congruence|]. rewrite Hpq in Hns. apply Forall_app in Hns. destruct Hns as [Hp Hq'].
        cbn [app]. apply even_join; [destruct b0; discriminate| |].
        - apply even_track; assumption.
        - change (low ((i :: q) ++ z :: r) = true). apply low_app; assumption. }
      right. exists z, r. split; [reflexivity|]. split; [exact Hlow|]. split.
      { apply even_join; [destruct b0; discriminate|apply even_track; assumption|exact HLz]. }
      cbn [ss_current ss_hist]. destruct a1 as [|y0 a1].
      * left. injection Ea as -> _. apply lower_exact; [apply P_in|exact Hlow].
      * right. injection Ea as -> _. split; [apply P_in|]. split; [exact (Forall_inv Hns)|]. auto.
  - injection Ez as <- <-. assert (EZ : P y = _Lower) by (apply lower_exact; [apply P_in|exact Hz]).
    assert (HF : F = true) by (unfold F; cbn [low]; rewrite c_LO, Hz; reflexivity).
    assert (Hk : k = 0%nat).
    { unfold k. destruct a1 as [|c a1]; [reflexivity|]. injection Ea as <- _. apply Forall_inv in Hns.
      destruct (nonstop_bits _ Hns) as (_ & _ & _ & X & _). congruence. }
    set (h := s_update (ss_current st) (ss_hist st)).
    assert (HDEC : s_flat (P y) (ss_current st) h w k F = SJoin w \/ s_flat (P y) (ss_current st) h w k F = SJoin k).
    { rewrite EZ. unfold s_flat.
      assert (N.lor _Lower (ss_current st) =? 0 = false) as -> by (rewrite lor_zero; reflexivity).
      change (is _Lower _LF) with false. cbn [andb].
      assert (is (ss_current st) _ParaSep = false) as ->.
      { destruct Hcur as [->|(_ & X & _)]; [reflexivity|]. destruct (nonstop_bits _ X) as (_ & _ & Y & _). exact Y. }
      change (is _Lower (N.lor _Extend _Format)) with false. cbv iota. change (is _Lower _Numeric) with false. cbn [andb].
      change (is _Lower _Upper) with false. cbn [andb]. rewrite HF, andb_true_r.
      destruct (is (h_lastExSpClose h) _ATerm) eqn:EA; [auto|]. left.
      unfold s_rules_tail. change (is _Lower (N.lor _SContinue _SATerm)) with false. cbn [andb].
      change (is _Lower (N.lor _Close (N.lor _Sp _ParaSep))) with false. cbn [andb].
      change (is _Lower (N.lor _Sp _ParaSep)) with false. cbn [andb Nat.add].
      destruct Hcur as [Hc|(HV & X & XI & XA & _ & _ & XC & _)].
      - unfold h. rewrite Hc. reflexivity.
      - destruct (nonstop_bits _ X) as (Y1 & Y2 & Y3 & _). revert EA. unfold h, s_update. rewrite XI. cbn [negb h_lastEx h_lastExSpClose].
        rewrite Y2, Y3. cbn [orb andb]. rewrite orb_false_r.
        destruct (is (ss_current st) _Close) eqn:EC.
        { rewrite (close_exact _ HV EC). change (is _Close _Sp) with false. cbn [negb]. change (is _Close _Close) with true. cbn [negb]. congruence. }
        cbn [andb orb]. destruct (is (ss_current st) _Sp) eqn:ES; [|reflexivity]. cbn [negb].
        destruct (is (h_lastExSp (ss_hist st)) _Close) eqn:EL; cbn [negb]; [congruence|]. rewrite <- (XC eq_refl). congruence. }
    destruct HDEC as [E|E]; rewrite E.
    + eexists. split; [reflexivity|]. exists [y], a. split; [reflexivity|]. split; [exact HW|]. split.
      { intros p q Hpq Hq. apply (ONE _ _ _ (fun u v => sentence_decides u v Join) Hpq Hq HJ). }
      left. apply lower_norm. exact Hz.
    + eexists. split; [reflexivity|]. exists [], (y :: a). split; [reflexivity|]. split; [rewrite Hk; reflexivity|]. split.
      { intros p q Hpq Hq. symmetry in Hpq. apply app_eq_nil in Hpq. tauto. }
      right. exists y, a. rewrite app_nil_r. split; [reflexivity|]. split; [exact Hz|]. split; [exact HJ|]. left. exact EZ.
Qed.

Lemma s_FU : forall data v w, e_lk0 SE data = Ok (v, w) -> w <> 0%nat -> (w <= length data)%nat ->
  (s_mu (e_init SE v) (skipn w data) < s_fuel data)%nat.
Proof. intros data v w _ Hw Hle. unfold s_mu, s_fuel. rewrite skipn_length. destruct (ss_current (e_init SE v) =? _Lower); lia. Qed.

Lemma s_disjoint : forall b a, sentence_decides b a Break -> sentence_decides b a Join -> False.
Proof. intros b a H1 H2. pose proof (sentence_fun _ _ _ _ H1 H2). discriminate. Qed.

Theorem s_conform : forall cps, scalars cps -> exists segs,
  chop splitFunc (S (length (encode cps))) (encode cps) = Ok (map encode segs) /\ segmentation sentence_decides cps segs.
Proof.
  exact (conform SE s_mu s_rules_ok s_fuel s_FU splitFunc s_split_engine P P lk_cp lk_cp
    sentence_decides s_Sim s_INIT s_STEP s_disjoint).
Qed.
