(** phrases: the rules as programmed agree, step by step, with the rules of UAX #29. *)
From Verif Require Import Base ListFacts Trie LookupFacts TableFacts Engine Lk Seek SeekText SpecUtf8 SpecUcd SpecLookup SpecIter SpecRules SpecWords
  RuleFacts BitFacts WordFacts Conform UcdFacts UcdPhrases TablePhrases PhrasesEngine.
From Verif Require Phrases.
Import Phrases.
Local Open Scope N_scope.

Notation P := phrases_property.

Lemma P_in : forall c, scalar c -> In (P c) pV.
Proof.
  intros c Hc. pose proof (p_lookup_cp c [] Hc) as H. rewrite app_nil_r in H.
  destruct (utf8_nonnil c) as (b & s & E). rewrite E in H.
  destruct (lookup_spec _ _ _ p_tables_ok b s) as (v & w & Hl & Hv & _).
  change (lookup _ _ (b :: s)) with (phrases_lookup (b :: s)) in Hl. rewrite H in Hl. injection Hl as <- _. exact Hv.
Qed.

(** ** Classes as bits *)
Definition cls (r : re) (m : N) : Prop := forall c, spred r c = is (P c) m.
Ltac do_cls := intros c; unfold SpecWords.CR, SpecWords.LF, Newline, SpecWords.ZWJ, ExtPict_, WSegSpace, Katakana, AHLetter, HebrewLetter, DoubleQuote,
    MidNumLetQ, MidNumLet, MidLetter, MidNum, SingleQuote, Numeric, ExtendNumLet, RI; cbn [spred];
  unfold phrases_property, wc, phrase_letter, AHLetter, MidNumLetQ; generalize (WB c) (ExtPict c);
  intros [] []; reflexivity.
Lemma c_CR : cls SpecWords.CR _CR. Proof. do_cls. Qed.
Lemma c_LF : cls SpecWords.LF _LF. Proof. do_cls. Qed.
Definition _NL := N.lor _Newline (N.lor _CR _LF).
Lemma c_NL : cls (Alt Newline (Alt SpecWords.CR SpecWords.LF)) _NL. Proof. do_cls. Qed.
Lemma c_ZWJ : cls SpecWords.ZWJ _ZWJ. Proof. do_cls. Qed.
Lemma c_EP : cls ExtPict_ _ExtendedPictographic. Proof. do_cls. Qed.
Lemma c_WS : cls WSegSpace _WSegSpace. Proof. do_cls. Qed.
Definition al := phrase_letter.
Lemma c_AH : cls (AHLetter al) _AHLetter. Proof. unfold al, phrase_letter. do_cls. Qed.
Lemma c_HL : cls HebrewLetter _HebrewLetter. Proof. do_cls. Qed.
Definition _ML := N.lor _MidLetter _MidNumLetQ.
Lemma c_ML : cls (Alt MidLetter MidNumLetQ) _ML. Proof. do_cls. Qed.
Definition _MN := N.lor _MidNum _MidNumLetQ.
Lemma c_MN : cls (Alt MidNum MidNumLetQ) _MN. Proof. do_cls. Qed.
Lemma c_SQ : cls SingleQuote _SingleQuote. Proof. do_cls. Qed.
Lemma c_DQ : cls DoubleQuote _DoubleQuote. Proof. do_cls. Qed.
Lemma c_NU : cls Numeric _Numeric. Proof. do_cls. Qed.
Lemma c_KA : cls Katakana _Katakana. Proof. do_cls. Qed.
Lemma c_EN : cls ExtendNumLet _ExtendNumLet. Proof. do_cls. Qed.
Definition _A3 := N.lor _AHLetter (N.lor _Numeric _Katakana).
Definition _A4 := N.lor _AHLetter (N.lor _Numeric (N.lor _Katakana _ExtendNumLet)).
Lemma c_A3 : cls (Alt (AHLetter al) (Alt Numeric Katakana)) _A3. Proof. unfold al, phrase_letter. do_cls. Qed.
Lemma c_A4 : cls (Alt (AHLetter al) (Alt Numeric (Alt Katakana ExtendNumLet))) _A4. Proof. unfold al, phrase_letter. do_cls. Qed.
Definition _PH := N.lor _Numeric (N.lor _AHLetter _WSegSpace).
Lemma c_PH : cls Phrasal _PH. Proof. unfold Phrasal, phrase_letter. do_cls. Qed.
Lemma c_RI : cls RI _RegionalIndicator. Proof. do_cls. Qed.
Lemma c_IG : forall c, ignored c = is (P c) _Ignore.
Proof. intros c. unfold ignored, phrases_property, wc. generalize (WB c) (ExtPict c). intros [] []; reflexivity. Qed.
Lemma c_LE : forall c, line_end c = is (P c) _NL.
Proof. intros c. unfold line_end, phrases_property, wc. generalize (WB c) (ExtPict c). intros [] []; reflexivity. Qed.

(** Values of summaries: ignored characters that were kept (after a line end) match no class and count as 0. *)
Definition val (o : option N) : N := match o with Some x => if ignored x then 0 else P x | None => 0 end.
Definition lval (o : option N) : N := match o with Some x => P x | None => 0 end.
Lemma on_l : forall r m o, cls r m -> on (spred r) o = is (lval o) m.
Proof. intros r m [x|] H; [apply H|reflexivity]. Qed.
Lemma on_v : forall r m o, cls r m -> (forall c, is (P c) _Ignore = true -> is (P c) m = false) -> on (spred r) o = is (val o) m.
Proof.
  intros r m [x|] H HI; [|reflexivity]. cbn [on val]. rewrite H, c_IG. destruct (is (P x) _Ignore) eqn:E; [apply HI; exact E|reflexivity].
Qed.
(** No ignored character is a pictograph: a fact of the Unicode tables. *)
Lemma extpict_scalar : forall c, ExtPict c = true -> scalar c.
Proof.
  intros c. unfold ExtPict.
  assert (H : forallb (fun r => (snd (fst r) <? 0xD800) || ((0xE000 <=? fst (fst r)) && (snd (fst r) <? 0x110000))) extpict_table = true) by (vm_compute; reflexivity).
  induction extpict_table as [|[[lo hi] v] t IH]; [discriminate|]. cbn [forallb fst snd] in H. apply andb_prop in H. destruct H as [H1 H2].
  cbn [range_value]. destruct ((lo <=? c) && (c <=? hi)) eqn:E; [|apply IH; exact H2]. intros _.
  apply andb_prop in E. destruct E as [A B]. apply N.leb_le in A, B. apply orb_prop in H1. destruct H1 as [H1|H1].
  - apply N.ltb_lt in H1. left. lia.
  - apply andb_prop in H1. destruct H1 as [H3 H4]. apply N.leb_le in H3. apply N.ltb_lt in H4. right. lia.
Qed.
Lemma ign_ep : forall c, is (P c) _Ignore = true -> ExtPict c = false.
Proof.
  intros c HI. destruct (ExtPict c) eqn:E; [|reflexivity]. pose proof (P_in c (extpict_scalar c E)) as HV.
  assert (HX : is (P c) _ExtendedPictographic = true) by (unfold phrases_property; rewrite E; cbn [flag]; generalize (WB c); intros []; reflexivity).
  revert HI HX HV. generalize (P c). clear. intros v HI HX HV. unfold pV in HV. cbn [In] in HV.
  repeat (destruct HV as [<-|HV]; [first [discriminate HI | discriminate HX]|]). contradiction.
Qed.
Ltac no_ign := let HI := fresh in let HE := fresh in intros c HI; pose proof (ign_ep c HI) as HE; revert HI; unfold phrases_property; rewrite HE; generalize (WB c); intros []; (reflexivity || discriminate).

Definition vdec2 (lx ll : N) (run : nat) (c n : N) : op :=
  if is lx _AHLetter && is c _AHLetter then Join
  else if is lx _AHLetter && (is c _ML && is n _AHLetter) then Join
  else if is lx _ML && is ll _AHLetter && is c _AHLetter then Join
  else if is lx _HebrewLetter && is c _SingleQuote then Join
  else if is lx _HebrewLetter && (is c _DoubleQuote && is n _HebrewLetter) then Join
  else if is lx _DoubleQuote && is ll _HebrewLetter && is c _HebrewLetter then Join
  else if is lx _Numeric && is c _Numeric then Join
  else if is lx _AHLetter && is c _Numeric then Join
  else if is lx _Numeric && is c _AHLetter then Join
  else if is lx _MN && is ll _Numeric && is c _Numeric then Join
  else if is lx _Numeric && (is c _MN && is n _Numeric) then Join
  else if is lx _Katakana && is c _Katakana then Join
  else if is lx _A4 && is c _ExtendNumLet then Join
  else if is lx _ExtendNumLet && is c _A3 then Join
  else if Nat.odd run && is c _RegionalIndicator then Join
  else if is lx _PH && is c _PH then Join
  else Break.
Definition vdec1 (l c : N) : option op :=
  if is l _CR && is c _LF then Some Join
  else if is l _NL then Some Break
  else if is c _NL then Some Break
  else if is l _ZWJ && is c _ExtendedPictographic then Some Join
  else if is l _WSegSpace && is c _WSegSpace then Some Join
  else if is c _Ignore then Some Join
  else None.
Definition vdec (l lx ll : N) (run : nat) (c n : N) : op :=
  match vdec1 l c with Some o => o | None => vdec2 lx ll run c n end.

Lemma dec1_v : forall l y, word_dec1 l y = vdec1 (lval l) (P y).
Proof.
  intros l y. unfold word_dec1, vdec1.
  rewrite (on_l _ _ l c_CR), (on_l _ _ l c_NL), (on_l _ _ l c_ZWJ), (on_l _ _ l c_WS), c_LF, c_NL, c_EP, c_WS, c_IG. reflexivity.
Qed.
Lemma dec2_v : forall lx ll run y n, word_dec2 al [Phrasal] lx ll run y n = vdec2 (val lx) (val ll) run (P y) (val n).
Proof.
  intros lx ll run y n. unfold word_dec2, vdec2. cbn [existsb].
  rewrite !(fun o => on_v _ _ o c_AH) by no_ign. rewrite !(fun o => on_v _ _ o c_ML) by no_ign.
  rewrite !(fun o => on_v _ _ o c_HL) by no_ign. rewrite !(fun o => on_v _ _ o c_DQ) by no_ign.
  rewrite !(fun o => on_v _ _ o c_NU) by no_ign. rewrite !(fun o => on_v _ _ o c_MN) by no_ign.
  rewrite !(fun o => on_v _ _ o c_KA) by no_ign. rewrite !(fun o => on_v _ _ o c_EN) by no_ign.
  rewrite !(fun o => on_v _ _ o c_A4) by no_ign. rewrite !(fun o => on_v _ _ o c_PH) by no_ign.
  rewrite !c_AH, !c_ML, !c_HL, !c_DQ, !c_NU, !c_MN, !c_KA, !c_EN, !c_A3, !c_SQ, !c_RI, !c_PH. rewrite orb_false_r. reflexivity.
Qed.

(** ** The next character that is not ignored *)
Notation nextv := (nextv _Ignore P).
Lemma after_red_v : forall y a, line_end y = false -> val (after_red y a) = nextv a.
Proof.
  intros y a. unfold after_red. revert y. induction a as [|c a IH]; intros y Hy; [reflexivity|].
  cbn [reduce SeekText.nextv]. unfold skipped. rewrite Hy, <- c_IG. cbn [negb]. rewrite andb_true_r.
  destruct (ignored c) eqn:E.
  - apply IH. rewrite c_IG in E. rewrite c_LE. revert E. clear. revert c. no_ign.
  - cbn [hd_error val]. rewrite E. reflexivity.
Qed.

Lemma p_spec : forall b x y a, phrase_decides (b ++ [x]) (y :: a)
  (let t := wtrack (b ++ [x]) in vdec (P x) (val (w_lx t)) (val (w_ll t)) (w_run t) (P y) (nextv a)).
Proof.
  intros b x y a. pose proof (word_spec al [Phrasal] eq_refl b x y a) as H. cbv zeta. cbn [map] in H. unfold phrase_decides.
  replace (vdec _ _ _ _ _ _) with (word_dec al [Phrasal] (wtrack (b ++ [x])) y (after_red y a)); [exact H|].
  unfold word_dec, vdec. rewrite dec1_v. destruct (wtrack_facts (b ++ [x])) as (HL & _). rewrite HL, last_char_snoc. cbn [lval].
  destruct (vdec1 (P x) (P y)) eqn:E; [reflexivity|]. rewrite dec2_v, after_red_v; [reflexivity|].
  rewrite c_LE. unfold vdec1 in E. repeat match type of E with (if ?c then _ else _) = _ => destruct c eqn:?; try discriminate end. reflexivity.
Qed.

(** Facts about summaries. *)
Lemma wtrack_lx : forall b x, let t := wtrack (b ++ [x]) in is (P x) _Ignore = false -> val (w_lx t) = P x.
Proof.
  intros b x t H. unfold t. rewrite wtrack_snoc. unfold wstep, drops. rewrite c_IG, H. cbn [andb w_lx val]. rewrite c_IG, H. reflexivity.
Qed.
Lemma wtrack_run : forall b, is (val (w_lx (wtrack b))) _RegionalIndicator = false -> w_run (wtrack b) = 0%nat.
Proof.
  induction b as [|x b IH] using rev_ind; [reflexivity|]. rewrite wtrack_snoc. unfold wstep.
  destruct (drops _ _ _ _) eqn:E; cbn [w_lx w_run]; [exact IH|]. rewrite <- (on_v _ _ (Some x) c_RI) by no_ign. cbn [on]. unfold wri.
  cbn [spred RI]. intros ->. reflexivity.
Qed.

(** A line end leaves nothing behind that a letter could attach to. *)
Definition _Used := N.lor _AHLetter (N.lor _ML (N.lor _DoubleQuote (N.lor _MN (N.lor _A4 _RegionalIndicator)))).
Lemma nl_lx : forall l, In l pV -> is l _NL = true -> is l _Ignore = false /\ is l _Used = false /\ is l _WSegSpace = false /\ is l _ZWJ = false.
Proof.
  intros l Hl. unfold pV in Hl. cbn [In] in Hl. repeat (destruct Hl as [<-|Hl]; [intros HN; first [discriminate HN | repeat split; reflexivity]|]). contradiction.
Qed.

(** ** The rules as programmed, against [vdec] *)
Lemma used_split : forall l, is l _Used = false -> is l _ALetter = false /\ is l _HebrewLetter = false /\ is l _MidLetter = false /\ is l _MidNumLet = false
  /\ is l _SingleQuote = false /\ is l _DoubleQuote = false /\ is l _MidNum = false /\ is l _Numeric = false /\ is l _Katakana = false
  /\ is l _ExtendNumLet = false /\ is l _RegionalIndicator = false /\ is l _ExtendedPictographic = false.
Proof.
  intros l. unfold _Used, _A4, _ML, _MN, _AHLetter, _MidNumLetQ. rewrite !is_lor_r. intros H.
  repeat (apply orb_false_iff in H; destruct H as [? H]).
  repeat match goal with H : _ || _ = false |- _ => apply orb_false_iff in H; destruct H end. repeat split; assumption.
Qed.

Definition jumps (c lx n : N) : bool :=
  is c _ML && is lx _AHLetter && is n _AHLetter || is c _DoubleQuote && is lx _HebrewLetter && is n _HebrewLetter
  || is c _MN && is lx _Numeric && is n _Numeric.

Lemma p_rules_dec : forall l lx llm lls ri run c n w k after, In c pV ->
  (forall props, subsequent props after true = Ok (if is n props then Some k else None, false)) ->
  (is l _NL = true -> is l _CR = is l _CR -> is lx _Used = false /\ is l _WSegSpace = false /\ is l _ZWJ = false) ->
  (is c _AHLetter = true -> is lx _ML = true -> is llm _AHLetter = is lls _AHLetter) ->
  (is c _HebrewLetter = true -> is lx _DoubleQuote = true -> is llm _HebrewLetter = is lls _HebrewLetter) ->
  (is c _Numeric = true -> is lx _MN = true -> is llm _Numeric = is lls _Numeric) ->
  (is lx _RegionalIndicator = true -> Nat.odd run = Nat.even ri) -> (is lx _RegionalIndicator = false -> run = 0%nat) ->
  match p_rules c l lx llm ri w after true with
  | Ok PBreak => vdec l lx lls run c n = Break
  | Ok (PJoin adv ri') => vdec l lx lls run c n = Join
      /\ (is c _RegionalIndicator = true -> is lx _RegionalIndicator = true /\ ri' = S ri)
      /\ (is c _RegionalIndicator = false -> ri' = ri)
      /\ (adv = w \/ adv = (w + k)%nat /\ is c _Ignore = false /\ is c _RegionalIndicator = false /\ jumps c lx n = true)
  | _ => False
  end.
Proof.
  intros l lx llm lls ri run c n w k after Hc HS HNL G7 G7c G11 R1 R2.
  unfold p_rules, vdec, vdec1, vdec2, lookahead, jumps. rewrite !HS. cbn [bind]. rewrite is_lor_l, lor_zero.
  change _WSegSpace with (2 ^ 17). rewrite is_land. change (2 ^ 17) with _WSegSpace.
  replace (Nat.eqb ((ri + 1) mod 2) 1) with (Nat.even ri).
  2:{ rewrite <- (Nat.bit0_mod (ri + 1)). rewrite Nat.bit0_odd, Nat.add_1_r, Nat.odd_succ. destruct (Nat.even ri); reflexivity. }
  fold _NL. fold _ML. fold _MN. fold _A4. fold _A3. fold _PH.
  assert (R3 : is lx _RegionalIndicator && Nat.even ri = Nat.odd run).
  { destruct (is lx _RegionalIndicator); [rewrite R1 by reflexivity; reflexivity|rewrite R2 by reflexivity; reflexivity]. }
  clear R1 R2 HS.
  destruct (is l _NL) eqn:EN.
  - assert (EZ : (l =? 0) = false) by (destruct (l =? 0) eqn:EZ; [apply N.eqb_eq in EZ; subst l; discriminate EN|reflexivity]).
    rewrite EZ, andb_false_r. cbn [orb]. rewrite (andb_comm (is c _LF)).
    destruct (is l _CR && is c _LF) eqn:E3; [|reflexivity].
    split; [reflexivity|]. apply andb_prop in E3. destruct E3 as [_ E3].
    unfold pV in Hc. cbn [In] in Hc. repeat (destruct Hc as [<-|Hc]; [first [discriminate E3 | repeat split; auto; discriminate]|]). contradiction.
  - clear HNL.
    assert (EC : is l _CR = false). { unfold _NL in EN. rewrite !is_lor_r in EN. apply orb_false_iff in EN. destruct EN as [_ EN]. apply orb_false_iff in EN. tauto. }
    rewrite EC. rewrite !andb_false_r. cbn [andb orb].
    unfold pV in Hc. cbn [In] in Hc.
    repeat (destruct Hc as [<-|Hc];
      [eval_is_in G7; eval_is_in G7c; eval_is_in G11; eval_is;
       cbn [andb orb negb N.eqb Pos.eqb]; rewrite ?andb_false_r, ?andb_true_r; cbn [andb orb negb]; rewrite <- ?R3;
       unfold _A4, _A3, _PH, _ML, _MN, _AHLetter, _MidNumLetQ in *; rewrite ?is_lor_r in * |]); [..|contradiction];
    try (specialize (G7 eq_refl)); try (specialize (G7c eq_refl)); try (specialize (G11 eq_refl)).
    all: try (revert G7); try (revert G7c); try (revert G11).
    all: repeat (match goal with
      | |- context [if ?b then _ else _] => match b with context [is ?x ?p] => destruct (is x p) eqn:? | Nat.even _ => destruct b eqn:? | (_ =? 0) => destruct b end
      end; cbn [andb orb negb]).
    all: try (clear; intros; repeat split; auto; (discriminate || tauto)).
    all: try (clear; intros; rewrite ?andb_false_r; repeat split; auto; (discriminate || tauto)).
    all: rewrite ?orb_true_r; clear; intros;
      repeat match goal with H : true = true -> _ |- _ => specialize (H eq_refl) end; try discriminate.
    split; [reflexivity|]. split; [intros _; split; [reflexivity|lia]|]. split; [discriminate|auto].
Qed.

(** After a successful lookahead the loop continues at the character found, and joins it. *)
Lemma p_jump : forall c lx ri y w after, In c pV -> In y pV -> jumps c lx y = true ->
  p_rules y c c lx ri w after true = Ok (PJoin w ri).
Proof.
  intros c lx ri y w after Hc Hy HJ. unfold jumps in HJ.
  unfold p_rules, lookahead. rewrite is_lor_l.
  unfold pV in Hc, Hy. cbn [In] in Hc.
  repeat (destruct Hc as [<-|Hc]; [eval_is_in HJ; first [discriminate HJ | idtac] |]); [..|contradiction];
  cbn [In] in Hy;
  repeat (destruct Hy as [<-|Hy]; [eval_is_in HJ; cbn [andb orb] in HJ; rewrite ?andb_false_r, ?andb_true_r in HJ; cbn [andb orb] in HJ;
    first [discriminate HJ |
     eval_is; rewrite ?andb_false_r; cbn [andb orb];
     repeat match goal with |- context [is (N.land ?a ?b) ?p] => let r := eval vm_compute in (is (N.land a b) p) in change (is (N.land a b) p) with r end; cbn [andb orb];
     unfold _AHLetter in *; rewrite ?is_lor_r in *;
     repeat match type of HJ with context [is lx ?p] => destruct (is lx p) end; cbn [andb orb] in *; first [discriminate HJ | reflexivity]] |]); contradiction.
Qed.
Lemma v_jump : forall l c lx y n, In l pV -> In c pV -> In y pV -> (l = c \/ is l _Ignore = true) -> jumps c lx y = true ->
  forall lls run, lls = lx -> vdec l c lls run y n = Join.
Proof.
  intros l c lx y n Hl Hc Hy HL HJ lls run ->. unfold jumps in HJ.
  assert (E1 : is l _NL = false).
  { destruct HL as [->|HL].
    - unfold pV in Hc. cbn [In] in Hc. repeat (destruct Hc as [<-|Hc]; [eval_is_in HJ; first [discriminate HJ | reflexivity] |]). contradiction.
    - unfold pV in Hl. cbn [In] in Hl. repeat (destruct Hl as [<-|Hl]; [first [discriminate HL | reflexivity] |]). contradiction. }
  assert (E2 : is l _CR = false). { unfold _NL in E1. rewrite !is_lor_r in E1. apply orb_false_iff in E1. destruct E1 as [_ E1]. apply orb_false_iff in E1. tauto. }
  unfold vdec, vdec1, vdec2. rewrite E1, E2. clear E1 E2 HL Hl.
  unfold pV in Hc, Hy. cbn [In] in Hc.
  repeat (destruct Hc as [<-|Hc]; [eval_is_in HJ; first [discriminate HJ | idtac] |]); [..|contradiction];
  cbn [In] in Hy;
  repeat (destruct Hy as [<-|Hy]; [eval_is_in HJ; cbn [andb orb] in HJ; rewrite ?andb_false_r, ?andb_true_r in HJ; cbn [andb orb] in HJ;
    first [discriminate HJ |
     eval_is; rewrite ?andb_false_r, ?andb_true_r; cbn [andb orb];
     unfold _AHLetter in *; rewrite ?is_lor_r in *;
     repeat match type of HJ with context [is lx ?p] => destruct (is lx p) end; cbn [andb orb] in *; first [discriminate HJ | idtac];
     repeat match goal with |- context [if ?b then _ else _] => destruct b; try reflexivity end; try reflexivity] |]); contradiction.
Qed.

(** ** The simulation *)
Definition up_ex (l lastEx : N) : N := if negb (is l _Ignore) then l else lastEx.
Definition up_ll (l lastEx lastLastEx : N) : N := if negb (is l _Ignore) then lastEx else lastLastEx.
Definition guards (n lx llm lls : N) : Prop :=
  (is n _AHLetter = true -> is lx _ML = true -> is llm _AHLetter = is lls _AHLetter)
  /\ (is n _HebrewLetter = true -> is lx _DoubleQuote = true -> is llm _HebrewLetter = is lls _HebrewLetter)
  /\ (is n _Numeric = true -> is lx _MN = true -> is llm _Numeric = is lls _Numeric).

Definition norm (st : pst) (b a : text) : Prop :=
  exists b0 x, b = b0 ++ [x] /\ In (P x) pV /\ ps_current st = P x
    /\ up_ex (P x) (ps_lastEx st) = val (w_lx (wtrack b))
    /\ guards (nextv a) (val (w_lx (wtrack b))) (up_ll (P x) (ps_lastEx st) (ps_lastLastEx st)) (val (w_ll (wtrack b)))
    /\ (is (val (w_lx (wtrack b))) _RegionalIndicator = true -> Nat.odd (w_run (wtrack b)) = Nat.even (ps_ri st)).

Definition p_Sim (st : pst) (b a : text) : Prop :=
  norm st b a
  \/ exists y a' st', a = y :: a' /\ scalar y /\ p_erules st (P y) (encode a) (length (utf8 y)) true = Ok (EJoin (length (utf8 y)) st')
       /\ phrase_decides b a Join /\ norm st' (b ++ [y]) a'.

Lemma scalars_mid : forall b x a, scalars (b ++ x :: a) -> scalar x.
Proof. intros b x a H. apply Forall_app in H. destruct H as [_ H]. exact (Forall_inv H). Qed.

Lemma guards_eq : forall n lx ll, guards n lx ll ll.
Proof. intros. repeat split; reflexivity. Qed.

Lemma ign_cases : forall l, In l pV -> is l _Ignore = true -> is l _NL = false /\ is l _RegionalIndicator = false.
Proof.
  intros l Hl. unfold pV in Hl. cbn [In] in Hl. repeat (destruct Hl as [<-|Hl]; [intros HN; first [discriminate HN | repeat split; reflexivity]|]). contradiction.
Qed.
Lemma val_in : forall o, (forall x, o = Some x -> In (P x) pV) -> val o = 0 \/ In (val o) pV.
Proof. intros [x|] H; [|left; reflexivity]. cbn [val]. destruct (ignored x); [left; reflexivity|right; auto]. Qed.

(** If the last character is a line end, nothing can attach. *)
Lemma nl_track : forall b x, In (P x) pV -> is (P x) _NL = true ->
  is (val (w_lx (wtrack (b ++ [x])))) _Used = false /\ is (P x) _WSegSpace = false /\ is (P x) _ZWJ = false.
Proof.
  intros b x Hx HN. destruct (nl_lx _ Hx HN) as (I1 & I2 & I3 & I4). rewrite wtrack_lx by exact I1. auto.
Qed.

(** At a break, nothing before the break could have attached through what follows. *)
Lemma v_init : forall l lx ll run c n, In c pV -> vdec l lx ll run c n = Break -> is c _Ignore = false ->
  (is l _NL = true -> is lx _Used = false) -> (is lx _RegionalIndicator = false -> run = 0%nat) ->
  guards n c 0 lx /\ (is c _RegionalIndicator = true -> Nat.odd run = false).
Proof.
  intros l lx ll run c n Hc HB HI HNL HR. unfold guards.
  destruct (is l _NL) eqn:EN.
  - specialize (HNL eq_refl). apply used_split in HNL. destruct HNL as (V1 & V2 & V3 & V4 & V5 & V6 & V7 & V8 & V9 & V10 & V11 & V12).
    unfold _AHLetter. rewrite !(is_lor_r lx), V1, V2, V8, V12, HR by exact V11. repeat split; reflexivity.
  - assert (EC : is l _CR = false). { unfold _NL in EN. rewrite !is_lor_r in EN. apply orb_false_iff in EN. destruct EN as [_ EN]. apply orb_false_iff in EN. tauto. }
    clear HNL HR. unfold vdec, vdec1, vdec2 in HB. rewrite EN, EC in HB. cbn [andb] in HB.
    unfold pV in Hc. cbn [In] in Hc.
    repeat (destruct Hc as [<-|Hc]; [first [discriminate HI | clear HI; eval_is_in HB; eval_is; rewrite ?andb_true_r, ?andb_false_r in HB; cbn [andb orb] in HB] |]); [..|contradiction].
    all: first [discriminate HB | idtac].
    all: repeat split; intros; try discriminate;
      repeat match goal with H : ?x = true |- _ => rewrite H in HB; clear H end; rewrite ?andb_true_r in HB; cbn [andb orb] in HB.
    all: match goal with |- Nat.odd _ = false => destruct (Nat.odd run) | |- _ = ?b => destruct b end; try reflexivity; exfalso; cbn [andb] in HB;
      repeat match type of HB with context [if ?c then _ else _] => destruct c; try discriminate HB end; discriminate HB.
Qed.

Lemma v_ign : forall l lx ll run c n, In c pV -> is c _Ignore = true -> is l _NL = false -> vdec l lx ll run c n = Join.
Proof.
  intros l lx ll run c n Hc HI EN. unfold vdec, vdec1. rewrite HI, EN. destruct (ign_cases _ Hc HI) as [E1 _]. rewrite E1.
  repeat match goal with |- context [if ?c then _ else _] => destruct c; try reflexivity end.
Qed.
Lemma v_nl : forall l lx ll run c n, In c pV -> is c _Ignore = true -> vdec l lx ll run c n = Join -> is l _NL = false.
Proof.
  intros l lx ll run c n Hc HI HJ. unfold vdec, vdec1 in HJ.
  assert (is c _LF = false) as EL by (unfold pV in Hc; cbn [In] in Hc; repeat (destruct Hc as [<-|Hc]; [first [discriminate HI | reflexivity]|]); contradiction).
  rewrite EL, andb_false_r in HJ. destruct (is l _NL); [discriminate|reflexivity].
Qed.

(** The loop of the code starts afresh after a break. *)
Lemma p_INIT : forall b x a, scalars (b ++ x :: a) -> (b = [] \/ phrase_decides b (x :: a) Break) -> p_Sim (e_init PE (P x)) (b ++ [x]) a.
Proof.
  intros b x a Hs Hb. left. pose proof (P_in x (scalars_mid _ _ _ Hs)) as Hx. exists b, x. split; [reflexivity|]. split; [exact Hx|].
  split; [reflexivity|]. cbn [e_init PE ps_lastEx ps_lastLastEx ps_ri].
  replace (up_ll (P x) 0 0) with 0 by (unfold up_ll; destruct (negb _); reflexivity).
  rewrite wtrack_snoc. unfold wstep.
  destruct b as [|z b _] using rev_ind.
  - (* start of text *)
    assert (drops ignored line_end (w_l (wtrack [])) x = false) as -> by (unfold drops; cbn; apply andb_false_r).
    cbn [w_lx w_ll w_run val wtrack fold_left wtr0]. split; [unfold up_ex; rewrite c_IG; destruct (is (P x) _Ignore); reflexivity|].
    split; [apply guards_eq|]. rewrite c_IG. destruct (is (P x) _Ignore); [discriminate|]. intros HR.
    unfold wri. change (wc WB_Regional_Indicator x) with (spred RI x). rewrite c_RI, HR. reflexivity.
  - destruct Hb as [Hb|Hb]; [destruct b; discriminate|].
    pose proof (word_like_fun _ _ _ _ _ _ Hb (p_spec b z x a)) as HB. cbv zeta in HB. symmetry in HB.
    set (t := wtrack (b ++ [z])) in *.
    assert (HL : w_l t = Some z) by (destruct (wtrack_facts (b ++ [z])) as (HL & _); unfold t; rewrite HL, last_char_snoc; reflexivity).
    assert (Hz : In (P z) pV). { apply P_in. rewrite <- app_assoc in Hs. exact (scalars_mid _ _ _ Hs). }
    assert (HD : drops ignored line_end (w_l t) x = false).
    { rewrite HL. unfold drops. rewrite c_IG, c_LE. destruct (is (P x) _Ignore) eqn:E; [|reflexivity]. cbn [andb].
      destruct (is (P z) _NL) eqn:E1; [reflexivity|]. rewrite v_ign in HB by assumption. discriminate. }
    rewrite HD. cbn [w_lx w_ll w_run val]. split; [unfold up_ex; rewrite c_IG; destruct (is (P x) _Ignore); reflexivity|].
    assert (HNL : is (P z) _NL = true -> is (val (w_lx t)) _Used = false) by (intros HN; apply (nl_track b z Hz HN)).
    assert (HRUN : is (val (w_lx t)) _RegionalIndicator = false -> w_run t = 0%nat) by apply wtrack_run.
    rewrite c_IG. destruct (is (P x) _Ignore) eqn:EI.
    { split; [repeat split; intros; discriminate|discriminate]. }
    destruct (v_init _ _ _ _ _ _ Hx HB EI HNL HRUN) as (HG & HO). split; [exact HG|]. intros HR.
    unfold wri. change (wc WB_Regional_Indicator x) with (spred RI x). rewrite c_RI, HR. rewrite Nat.odd_succ, <- Nat.negb_odd, HO by exact HR. reflexivity.
Qed.

(** Ignored characters leave the summary alone, except for the last character. *)
Lemma track_ign : forall p b y, is (P y) _NL = false -> Forall (fun c => is (P c) _Ignore = true) p -> Forall (fun c => In (P c) pV) p ->
  exists b' l, b ++ y :: p = b' ++ [l] /\ (l = y \/ is (P l) _Ignore = true) /\ is (P l) _NL = false
    /\ w_lx (wtrack (b ++ y :: p)) = w_lx (wtrack (b ++ [y])) /\ w_ll (wtrack (b ++ y :: p)) = w_ll (wtrack (b ++ [y]))
    /\ w_run (wtrack (b ++ y :: p)) = w_run (wtrack (b ++ [y])).
Proof.
  induction p as [|i p IH] using rev_ind; intros b y Hy HI HV; [exists b, y; auto 8|].
  apply Forall_app in HI. destruct HI as [HI Hi]. apply Forall_inv in Hi. apply Forall_app in HV. destruct HV as [HV Hv]. apply Forall_inv in Hv.
  destruct (IH b y Hy HI HV) as (b' & l & E1 & E2 & E3 & E4 & E5 & E6).
  exists (b ++ y :: p), i. split; [rewrite <- app_assoc; reflexivity|]. split; [auto|]. split; [apply ign_cases; assumption|].
  replace (b ++ y :: p ++ [i]) with ((b ++ y :: p) ++ [i]) by (rewrite <- app_assoc; reflexivity).
  rewrite wtrack_snoc. unfold wstep. destruct (wtrack_facts (b ++ y :: p)) as (HL & _).
  assert (drops ignored line_end (w_l (wtrack (b ++ y :: p))) i = true) as ->.
  { rewrite HL, E1, last_char_snoc. unfold drops. rewrite c_IG, Hi, c_LE, E3. reflexivity. }
  cbn [w_lx w_ll w_run]. auto.
Qed.

Lemma jumps_n : forall c lx n, In n pV -> In c pV -> jumps c lx n = true -> is c _NL = false /\ is n _Ignore = false /\ is n _RegionalIndicator = false.
Proof.
  intros c lx n Hn Hc H. unfold jumps in H.
  assert (H' : is n (N.lor _AHLetter _Numeric) = true).
  { unfold _AHLetter in *. rewrite !is_lor_r in *. destruct (is n _ALetter), (is n _HebrewLetter), (is n _Numeric), (is n _ExtendedPictographic); auto.
    rewrite !andb_false_r in H. exact H. }
  assert (H2 : is c (N.lor _ML (N.lor _DoubleQuote _MN)) = true).
  { rewrite !is_lor_r. destruct (is c _ML), (is c _DoubleQuote), (is c _MN); auto. }
  clear H. split.
  - unfold pV in Hc. cbn [In] in Hc. repeat (destruct Hc as [<-|Hc]; [first [discriminate H2 | reflexivity]|]). contradiction.
  - unfold pV in Hn. cbn [In] in Hn. repeat (destruct Hn as [<-|Hn]; [first [discriminate H' | split; reflexivity]|]). contradiction.
Qed.
Lemma jumps_0 : forall c lx, jumps c lx 0 = false.
Proof. intros. unfold jumps. change (is 0 _AHLetter) with false. change (is 0 _HebrewLetter) with false. change (is 0 _Numeric) with false. rewrite !andb_false_r. reflexivity. Qed.

Lemma p_STEP : forall st b y a, scalars (b ++ y :: a) -> p_Sim st b (y :: a) ->
    exists dec, e_rules PE st (P y) (encode (y :: a)) (length (utf8 y)) true = Ok dec
      /\ match dec with
         | EBreak => phrase_decides b (y :: a) Break
         | EJoin adv st' => exists a1 a2, y :: a = a1 ++ a2 /\ adv = length (encode a1)
             /\ (forall p q, a1 = p ++ q -> q <> [] -> phrase_decides (b ++ p) (q ++ a2) Join) /\ p_Sim st' (b ++ a1) a2
         | _ => False
         end.
Proof.
  intros st b y a Hs [HN|(y' & a' & st' & E & Hy & HR & HD & HN)].
  2:{ injection E as <- <-. eexists; split; [exact HR|]. exists [y], a. split; [reflexivity|].
      split; [unfold encode; cbn [map concat]; rewrite app_nil_r; reflexivity|]. split; [|left; exact HN].
      intros p q Hpq Hq. destruct p as [|z p].
      - cbn [app] in Hpq. subst q. rewrite app_nil_r. exact HD.
      - injection Hpq as <- Hpq. symmetry in Hpq. apply app_eq_nil in Hpq. tauto. }
  destruct HN as (b0 & x & -> & Hx & Hcur & HEx & HG & HRI).
  set (t := wtrack (b0 ++ [x])) in *.
  pose proof (scalars_mid _ _ _ Hs) as Hys. pose proof (P_in y Hys) as Hy.
  assert (Has : scalars a) by (apply Forall_app in Hs; destruct Hs as [_ Hs]; exact (Forall_inv_tail Hs)).
  assert (HL : w_l t = Some x) by (destruct (wtrack_facts (b0 ++ [x])) as (HL & _); unfold t; rewrite HL, last_char_snoc; reflexivity).
  pose proof (p_spec b0 x y a) as HS. cbv zeta in HS. fold t in HS.
  change (e_rules PE) with p_erules. unfold p_erules. rewrite Hcur. cbv zeta.
  fold (up_ll (P x) (ps_lastEx st) (ps_lastLastEx st)). fold (up_ex (P x) (ps_lastEx st)). rewrite HEx.
  set (llm := up_ll (P x) (ps_lastEx st) (ps_lastLastEx st)) in *.
  rewrite encode_cons. rewrite slice_from_ok by (rewrite app_length; lia). cbn [bind].
  rewrite skipn_app, skipn_all, Nat.sub_diag. cbn [app skipn].
  destruct (seek_text phrases_lookup _Ignore P p_lk p_lookup_cp a Has) as (a1 & a2 & Ea & Hsk & Hn & Hsub).
  assert (HRUN : is (val (w_lx t)) _RegionalIndicator = false -> w_run t = 0%nat) by apply wtrack_run.
  assert (HD := p_rules_dec (P x) (val (w_lx t)) llm (val (w_ll t)) (ps_ri st) (w_run t) (P y) (nextv a) (length (utf8 y)) (length (encode a1)) (encode a) Hy).
  specialize (HD (fun props => Hsub props)).
  specialize (HD (fun HN _ => nl_track b0 x Hx HN)).
  assert (HGy : is (P y) _Ignore = false -> guards (P y) (val (w_lx t)) llm (val (w_ll t))).
  { intros E. cbn [SeekText.nextv] in HG. unfold skipped in HG. rewrite E in HG. exact HG. }
  assert (HI3 : is (P y) _Ignore = true -> is (P y) _AHLetter = false /\ is (P y) _HebrewLetter = false /\ is (P y) _Numeric = false).
  { intros E. generalize dependent (P y). clear. intros c Hc. intros. unfold pV in Hc. cbn [In] in Hc.
    repeat (destruct Hc as [<-|Hc]; [first [discriminate E | repeat split; reflexivity]|]). contradiction. }
  specialize (HD ltac:(intros E; destruct (is (P y) _Ignore) eqn:EI; [destruct (HI3 eq_refl) as (X & _); congruence | apply (HGy eq_refl); exact E])).
  specialize (HD ltac:(intros E; destruct (is (P y) _Ignore) eqn:EI; [destruct (HI3 eq_refl) as (_ & X & _); congruence | apply (HGy eq_refl); exact E])).
  specialize (HD ltac:(intros E; destruct (is (P y) _Ignore) eqn:EI; [destruct (HI3 eq_refl) as (_ & _ & X); congruence | apply (HGy eq_refl); exact E])).
  specialize (HD HRI HRUN).
  destruct (p_rules _ _ _ _ _ _ _ _) as [[adv ri'| |]| |]; try contradiction; cbn [bind].
  2:{ eexists; split; [reflexivity|]. rewrite HD in HS. exact HS. }
  destruct HD as (HJ & HR1 & HR2 & HA). rewrite HJ in HS. eexists; split; [reflexivity|].
  assert (Hstep : is (P y) _Ignore = false -> wtrack ((b0 ++ [x]) ++ [y]) = {| w_l := Some y; w_lx := Some y; w_ll := w_lx t; w_run := if wri y then S (w_run t) else 0%nat |}).
  { intros EI. rewrite wtrack_snoc. fold t. unfold wstep, drops. rewrite c_IG, EI. reflexivity. }
  destruct HA as [->|(-> & EI & ER & HJP)].
  - exists [y], a. split; [reflexivity|]. split; [unfold encode; cbn [map concat]; rewrite app_nil_r; reflexivity|]. split.
    + intros p q Hpq Hq. destruct p as [|z p].
      * cbn [app] in Hpq. subst q. rewrite app_nil_r. exact HS.
      * injection Hpq as <- Hpq. symmetry in Hpq. apply app_eq_nil in Hpq. tauto.
    + left. exists (b0 ++ [x]), y. split; [reflexivity|]. split; [exact Hy|]. split; [reflexivity|]. cbn [ps_lastEx ps_lastLastEx ps_ri].
      destruct (is (P y) _Ignore) eqn:EI.
      * rewrite wtrack_snoc. fold t. unfold wstep. rewrite HL. unfold drops. rewrite c_IG, EI, c_LE, (v_nl _ _ _ _ _ _ Hy EI HJ). cbn [negb andb w_lx w_ll w_run].
        unfold up_ex, up_ll. rewrite EI. cbn [negb]. cbn [SeekText.nextv] in HG. unfold skipped in HG. rewrite EI in HG.
        rewrite HR2 by (apply ign_cases; assumption). auto.
      * rewrite Hstep by reflexivity. cbn [w_lx w_ll w_run val]. rewrite c_IG, EI. unfold up_ex, up_ll. rewrite EI. cbn [negb].
        split; [reflexivity|]. split; [apply guards_eq|]. intros HRy. destruct (HR1 HRy) as [HRl ->]. specialize (HRI HRl).
        unfold wri. change (wc WB_Regional_Indicator y) with (spred RI y). rewrite c_RI, HRy. rewrite Nat.odd_succ, Nat.even_succ, <- Nat.negb_even, <- HRI, Nat.negb_odd. reflexivity.
  - destruct Hn as [[_ Hn]|(z & r & -> & Hz & Hn)]; [rewrite Hn, jumps_0 in HJP; discriminate|]. rewrite Hn in HJP.
    assert (Hzs : scalar z). { rewrite Ea in Has. exact (scalars_mid _ _ _ Has). }
    pose proof (P_in z Hzs) as HzV. destruct (jumps_n _ _ _ HzV Hy HJP) as (EN & EZ & EZR).
    assert (HV : Forall (fun c => In (P c) pV) a1).
    { rewrite Ea in Has. apply Forall_app in Has. destruct Has as [Has _]. eapply Forall_impl; [|exact Has]. exact P_in. }
    unfold skipped in Hsk.
    exists (y :: a1), (z :: r). split; [rewrite Ea; reflexivity|]. split; [rewrite encode_cons, app_length; reflexivity|]. split.
    + intros p q Hpq Hq. destruct p as [|y0 p].
      * cbn [app] in Hpq. rewrite <- Hpq, app_nil_r. cbn [app]. rewrite <- Ea. exact HS.
      * injection Hpq as <- Hpq. destruct q as [|i q]; [congruence|]. rewrite Hpq in Hsk, HV. apply Forall_app in Hsk, HV.
        destruct Hsk as [Hp Hi], HV as [Vp Vi]. apply Forall_inv in Hi, Vi.
        destruct (track_ign p (b0 ++ [x]) y EN Hp Vp) as (b' & l & E1 & _ & E3 & _). rewrite E1. cbn [app].
        pose proof (p_spec b' l i (q ++ z :: r)) as HW. cbv zeta in HW. rewrite v_ign in HW by assumption. exact HW.
    + right. destruct (track_ign a1 (b0 ++ [x]) y EN Hsk HV) as (b' & l & E1 & E2 & E3 & E4 & E5 & E6).
      assert (Hlx : val (w_lx (wtrack ((b0 ++ [x]) ++ y :: a1))) = P y) by (rewrite E4, Hstep by exact EI; cbn [w_lx val]; rewrite c_IG, EI; reflexivity).
      assert (Hll : val (w_ll (wtrack ((b0 ++ [x]) ++ y :: a1))) = val (w_lx t)) by (rewrite E5, Hstep by exact EI; reflexivity).
      eexists z, r, _. split; [reflexivity|]. split; [exact Hzs|]. split.
      { unfold p_erules. cbn [ps_current ps_lastEx ps_lastLastEx ps_ri]. rewrite EI. cbn [negb]. cbv zeta.
        rewrite encode_cons. rewrite slice_from_ok by (rewrite app_length; lia). cbn [bind].
        rewrite p_jump by assumption. cbn [bind]. reflexivity. }
      split.
      { rewrite E1. pose proof (p_spec b' l z r) as HW. cbv zeta in HW. rewrite <- E1 in HW. rewrite Hlx, Hll in HW. rewrite <- E1.
        rewrite (v_jump (P l) (P y) (val (w_lx t)) (P z)) in HW; auto; [|destruct E2 as [->|E2]; auto].
        destruct E2 as [->|E2]; [exact Hy|]. assert (HlV : In l ((b0 ++ [x]) ++ y :: a1)) by (rewrite E1; apply in_or_app; right; left; reflexivity).
        apply in_app_or in HlV. apply P_in. rewrite Ea in Hs. apply Forall_app in Hs. destruct Hs as [Hs1 Hs2].
        destruct HlV as [H|[<-|H]]; [exact (proj1 (Forall_forall _ _) Hs1 _ H) | exact Hys|].
        apply (proj1 (Forall_forall _ _) Hs2). right. apply in_or_app. auto. }
      exists ((b0 ++ [x]) ++ y :: a1), z. split; [reflexivity|]. split; [exact HzV|]. split; [reflexivity|]. cbn [ps_lastEx ps_lastLastEx ps_ri].
      rewrite wtrack_snoc. unfold wstep, drops. rewrite c_IG, EZ. cbn [andb w_lx w_ll w_run val]. rewrite c_IG, EZ. unfold up_ex, up_ll. rewrite EZ. cbn [negb].
      split; [reflexivity|]. split; [rewrite Hlx; apply guards_eq|]. rewrite EZR. discriminate.
Qed.

Lemma p_FU : forall data v w, e_lk0 PE data = Ok (v, w) -> w <> 0%nat -> (w <= length data)%nat ->
  (p_mu (e_init PE v) (skipn w data) < p_fuel data)%nat.
Proof. intros data v w _ Hw Hle. unfold p_mu, p_fuel. rewrite skipn_length. lia. Qed.

Lemma p_disjoint : forall b a, phrase_decides b a Break -> phrase_decides b a Join -> False.
Proof. intros b a H1 H2. pose proof (word_like_fun _ _ _ _ _ _ H1 H2). discriminate. Qed.

Theorem p_conform : forall cps, scalars cps -> exists segs,
  chop (splitFunc) (S (length (encode cps))) (encode cps) = Ok (map encode segs) /\ segmentation phrase_decides cps segs.
Proof.
  exact (conform PE p_mu p_rules_ok p_fuel p_FU (splitFunc) p_split_engine P P p_lookup_cp p_lookup_cp
    phrase_decides p_Sim p_INIT p_STEP p_disjoint).
Qed.
