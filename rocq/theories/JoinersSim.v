(** words with Joiners: the simulation. *)
From Verif Require Import Base ListFacts Trie LookupFacts TableFacts Engine Lk Seek SeekText SpecUtf8 SpecUcd SpecLookup SpecIter SpecRules SpecWords SpecJoined
  RuleFacts BitFacts WordFacts Conform UcdFacts UcdWords TableWords WordsEngine WordsConform JoinedFacts DecodeFacts Utf8 JoinersConform.
From Verif Require Words.
Import Words.
Local Open Scope N_scope.

Section Joined.
  Variables mid lead : N -> bool.
  Notation M := (M mid).
  Notation mval := (mval mid).
  Notation L := (L lead).
  Notation nolead := (nolead lead).
  Notation ext := (ext lead).
  Notation guards_j := (guards_j lead).

  Lemma v_init_j : forall l lx ll run c n, vdec l lx ll run c n = Break -> is c _Ignore = false -> is c _NL = false ->
    (is l _NL = true -> is lx _Used = false) -> (is lx _RegionalIndicator = false -> run = 0%nat) ->
    (is n _AHLetter = true -> is c _ML = true -> is lx _AHLetter = true -> False)
    /\ (is n _HebrewLetter = true -> is c _DoubleQuote = true -> is lx _HebrewLetter = true -> False)
    /\ (is n _Numeric = true -> is c _MN = true -> is lx _Numeric = true -> False)
    /\ (is c _RegionalIndicator = true -> Nat.odd run = false).
  Proof.
    intros l lx ll run c n HB HI HN HNL HR.
    destruct (is l _NL) eqn:EN.
    - specialize (HNL eq_refl). apply used_split in HNL. destruct HNL as (V1 & V2 & V3 & V4 & V5 & V6 & V7 & V8 & V9 & V10 & V11).
      unfold _AHLetter. rewrite (is_lor_r lx), V1, V2, V8, HR by exact V11. repeat split; try discriminate; reflexivity.
    - clear HNL HR. unfold vdec, vdec1 in HB. rewrite EN, HI, HN in HB.
      repeat match type of HB with context [match (if ?c then Some _ else _) with _ => _ end] => destruct c; try discriminate HB end.
      rewrite vdec2_flat in HB.
      match type of HB with (if ?b then _ else _) = _ => destruct b eqn:E; [discriminate HB|] end. clear HB.
      repeat (apply orb_false_iff in E; destruct E as [E ?]).
      repeat split; intros; repeat match goal with H : ?x = true |- _ => rewrite H in * end; cbn [andb] in *; try discriminate.
      rewrite andb_true_r in *. assumption.
  Qed.

  Definition norm_j (st : wst) (b a : text) : Prop :=
    exists b0 x, b = b0 ++ [x] /\ scalar x /\ ext (M x) (ws_current st)
      /\ ext (mval (w_lx (wtrack b))) (up_ex (ws_current st) (ws_lastEx st))
      /\ (is (P x) _NL = false -> guards_j (nextv a) (mval (w_lx (wtrack b))) (up_ex (ws_current st) (ws_lastEx st))
            (up_ll (ws_current st) (ws_lastEx st) (ws_lastLastEx st)) (mval (w_ll (wtrack b))))
      /\ (is (mval (w_lx (wtrack b))) _RegionalIndicator = true -> Nat.odd (w_run (wtrack b)) = Nat.even (ws_ri st)).

  Definition jumped_j (st : wst) (b a : text) : Prop :=
    exists y a' b0 l, a = y :: a' /\ b = b0 ++ [l] /\ is (P l) _NL = false
      /\ is (ws_current st) _NL = false /\ is (ws_current st) _Ignore = false /\ jumps (ws_current st) (ws_lastEx st) (P y) = true
      /\ mval (w_lx (wtrack b)) = ws_current st /\ ext (mval (w_ll (wtrack b))) (ws_lastEx st).

  Definition j_Sim (st : wst) (b a : text) : Prop := norm_j st b a \/ jumped_j st b a.

  Lemma M_ign : forall x, is (M x) _Ignore = is (P x) _Ignore. Proof. intros. apply M_other. reflexivity. Qed.
  Lemma M_nl : forall x, is (M x) _NL = is (P x) _NL. Proof. intros. apply M_other. reflexivity. Qed.
  Lemma M_ri : forall x, is (M x) _RegionalIndicator = is (P x) _RegionalIndicator. Proof. intros. apply M_other. reflexivity. Qed.
  Lemma ext_other : forall v v' p, ext v v' -> is p (N.lor _MidNumLet _AHLetter) = false -> is v' p = is v p.
  Proof. intros v v' p H Hp. apply H. exact Hp. Qed.
  Lemma ext_AH : forall v v', ext v v' -> is v _AHLetter = true -> is v' _AHLetter = true.
  Proof.
    intros v v' (_ & H1 & H2 & _) H. unfold _AHLetter in *. rewrite is_lor_r in *. apply orb_prop in H. destruct H as [H|H]; [rewrite (H1 H)|rewrite (H2 H)]; auto using orb_true_r.
  Qed.
  Lemma guards_ext : forall n v lls llm, ext lls llm -> guards_j n v v llm lls.
  Proof.
    intros n v lls llm H. pose proof H as (H0 & H1 & H2 & H3 & H4). unfold JoinersConform.guards_j.
    split; [intros _ G1 G2; split; [exact G1|exact (ext_AH _ _ H G2)]|]. split; [intros _ _; exact H2|].
    split; [intros _ G1 G2; split; [exact G1|rewrite H0 by reflexivity; exact G2]|].
    intros HL. destruct (H4 HL) as [E1 E2]. unfold _AHLetter. rewrite !is_lor_r, E1, E2, (H0 _Numeric) by reflexivity. tauto.
  Qed.
  Lemma mtrack_lx : forall b x, is (P x) _Ignore = false -> mval (w_lx (wtrack (b ++ [x]))) = M x.
  Proof.
    intros b x H. rewrite wtrack_snoc. unfold wstep, drops. rewrite c_IG, H. cbn [andb w_lx JoinedFacts.mval]. rewrite c_IG, H. reflexivity.
  Qed.
  Lemma mtrack_run : forall b, is (mval (w_lx (wtrack b))) _RegionalIndicator = false -> w_run (wtrack b) = 0%nat.
  Proof. intros b. rewrite mval_other by reflexivity. apply wtrack_run. Qed.

  Definition D_j (b a : text) (o : op) : Prop :=
    match o with Break => joined_decides mid b a Break | Join => nolead -> joined_decides mid b a Join end.

  Lemma joined_fun : forall b a o1 o2, joined_decides mid b a o1 -> joined_decides mid b a o2 -> o1 = o2.
  Proof. intros b a o1 o2. apply word_like_fun. Qed.

  Lemma nl_used : forall x, scalar x -> is (P x) _NL = true -> is (P x) _Ignore = false /\ is (P x) _Numeric = false /\ is (P x) _AHLetter = false
    /\ is (P x) _WSegSpace = false /\ is (P x) _HebrewLetter = false /\ is (P x) _RegionalIndicator = false.
  Proof.
    intros x Hx HN. destruct (nl_lx _ (P_in x Hx) HN) as (I1 & I2 & I3 & I4). apply used_split in I2.
    destruct I2 as (V1 & V2 & V3 & V4 & V5 & V6 & V7 & V8 & V9 & V10 & V11). unfold _AHLetter. rewrite is_lor_r, V1, V2. auto 8.
  Qed.


  Lemma j_INIT : forall b x a, scalars (b ++ x :: a) -> (b = [] \/ D_j b (x :: a) Break) ->
    j_Sim {| ws_current := L x; ws_lastEx := 0; ws_lastLastEx := 0; ws_ri := 0 |} (b ++ [x]) a.
  Proof.
    intros b x a Hs Hb. left. pose proof (scalars_mid _ _ _ Hs) as Hx. exists b, x. split; [reflexivity|]. split; [exact Hx|].
    cbn [ws_current ws_lastEx ws_lastLastEx ws_ri]. pose proof (ext_L mid lead x) as HL. split; [exact HL|].
    assert (HI : is (L x) _Ignore = is (P x) _Ignore) by (rewrite <- M_ign; apply HL; reflexivity).
    replace (up_ll (L x) 0 0) with 0 by (unfold up_ll; destruct (negb _); reflexivity).
    unfold up_ex. rewrite HI.
    rewrite wtrack_snoc. unfold wstep.
    destruct b as [|z b _] using rev_ind.
    - (* start of text *)
      assert (drops ignored line_end (w_l (wtrack [])) x = false) as -> by (unfold drops; cbn; apply andb_false_r).
      cbn [w_lx w_ll w_run wtrack fold_left wtr0 JoinedFacts.mval]. rewrite c_IG.
      split; [destruct (is (P x) _Ignore); [exact (ext_refl mid lead _)|exact HL]|].
      split.
      { intros _. unfold JoinersConform.guards_j. change (is 0 _AHLetter) with false. change (is 0 _HebrewLetter) with false. change (is 0 _Numeric) with false. repeat split; intros; discriminate. }
      destruct (is (P x) _Ignore); [discriminate|]. rewrite M_ri. intros HR.
      unfold wri. change (wc WB_Regional_Indicator x) with (spred RI x). rewrite c_RI, HR. reflexivity.
    - destruct Hb as [Hb|Hb]; [destruct b; discriminate|]. cbn [D_j] in Hb.
      pose proof (joined_fun _ _ _ _ Hb (m_spec mid b z x a)) as HB. cbv zeta in HB. symmetry in HB.
      set (t := wtrack (b ++ [z])) in *.
      assert (HLt : w_l t = Some z) by (destruct (wtrack_facts (b ++ [z])) as (HLt & _); unfold t; rewrite HLt, last_char_snoc; reflexivity).
      assert (Hz : scalar z). { rewrite <- app_assoc in Hs. exact (scalars_mid _ _ _ Hs). }
      assert (HD : drops ignored line_end (w_l t) x = false).
      { rewrite HLt. unfold drops. rewrite c_IG, c_LE. destruct (is (P x) _Ignore) eqn:EI; [|reflexivity]. cbn [andb].
        destruct (is (P z) _NL) eqn:E1; [reflexivity|]. exfalso. unfold vdec, vdec1 in HB.
        rewrite M_ign, EI, !M_nl, E1 in HB. destruct (ign_cases _ (P_in x Hx) EI) as [E2 _]. rewrite E2 in HB.
        repeat match type of HB with context [if ?c then _ else _] => destruct c; try discriminate HB end. }
      rewrite HD. cbn [w_lx w_ll w_run JoinedFacts.mval]. rewrite c_IG. split; [destruct (is (P x) _Ignore); [exact (ext_refl mid lead _)|exact HL]|].
      destruct (is (P x) _Ignore) eqn:EI.
      { split; [|discriminate]. intros _. unfold JoinersConform.guards_j. change (is 0 _ML) with false. change (is 0 _DoubleQuote) with false. change (is 0 _MN) with false.
        repeat split; intros; discriminate. }
      assert (HNL : is (M z) _NL = true -> is (val (w_lx t)) _Used = false).
      { rewrite M_nl. intros HN. apply (nl_track b z (P_in z Hz) HN). }
      destruct (is (P x) _NL) eqn:EX.
      { split; [discriminate|]. rewrite M_ri. destruct (nl_used x Hx EX) as (_ & _ & _ & _ & _ & HR). rewrite HR. discriminate. }
      assert (HV : (is (nextv a) _AHLetter = true -> is (M x) _ML = true -> is (mval (w_lx t)) _AHLetter = true -> False)
        /\ (is (nextv a) _HebrewLetter = true -> is (M x) _DoubleQuote = true -> is (mval (w_lx t)) _HebrewLetter = true -> False)
        /\ (is (nextv a) _Numeric = true -> is (M x) _MN = true -> is (mval (w_lx t)) _Numeric = true -> False)
        /\ (is (M x) _RegionalIndicator = true -> Nat.odd (w_run t) = false)).
      { destruct (is (P z) _NL) eqn:EZ.
        - rewrite M_nl in HNL. specialize (HNL EZ). apply used_split in HNL. destruct HNL as (V1 & V2 & V3 & V4 & V5 & V6 & V7 & V8 & V9 & V10 & V11).
          rewrite !(mval_other mid (w_lx t)) by reflexivity. unfold _AHLetter. rewrite !is_lor_r, V1, V2, V8. pose proof (wtrack_run (b ++ [z]) V11) as HR0. fold t in HR0. rewrite HR0.
          repeat split; try discriminate; reflexivity.
        - apply (v_init_j _ _ _ _ _ _ HB); [rewrite M_ign; exact EI|rewrite M_nl; exact EX| |apply mtrack_run].
          rewrite M_nl, EZ. discriminate. }
      destruct HV as (A1 & A2 & A3 & A4). split.
      { intros _. unfold JoinersConform.guards_j. change (is 0 _AHLetter) with false. change (is 0 _HebrewLetter) with false. change (is 0 _Numeric) with false.
        split; [intros; exfalso; auto|]. split; [intros; exfalso; auto|]. split; [intros; exfalso; auto|]. repeat split; intros; discriminate. }
      rewrite M_ri in *. intros HR.
      unfold wri. change (wc WB_Regional_Indicator x) with (spred RI x). rewrite c_RI, HR. rewrite Nat.odd_succ, <- Nat.negb_odd, A4 by exact HR. reflexivity.
  Qed.

  Lemma jumps_M : forall c lx y, jumps c lx (M y) = jumps c lx (P y).
  Proof. intros. unfold jumps. rewrite !(M_other mid y) by reflexivity. reflexivity. Qed.
  Lemma jumps_ext : forall c lx lx' n, ext lx lx' -> nolead -> jumps c lx' n = jumps c lx n.
  Proof.
    intros c lx lx' n (H0 & _ & _ & _ & H4) HL. destruct (H4 HL) as [E1 E2]. unfold jumps, _AHLetter. rewrite !(is_lor_r lx), !(is_lor_r lx'), E1, E2, (H0 _Numeric) by reflexivity. reflexivity.
  Qed.
  Lemma m_ign : forall b l i a, is (P l) _NL = false -> In (P i) wV -> is (P i) _Ignore = true -> joined_decides mid (b ++ [l]) (i :: a) Join.
  Proof.
    intros b l i a Hl Hi HI. pose proof (m_spec mid b l i a) as HW. cbv zeta in HW. unfold vdec, vdec1 in HW. destruct (ign_cases _ Hi HI) as [E1 _].
    rewrite !M_nl, Hl, E1, M_ign, HI in HW. revert HW. repeat match goal with |- context [if ?c then _ else _] => destruct c end; auto.
  Qed.

  Lemma j_STEP : forall st b y a, scalars (b ++ y :: a) -> j_Sim st b (y :: a) ->
      exists dec, w_erules st (M y) (encode (y :: a)) (length (utf8 y)) true = Ok dec
        /\ match dec with
           | EBreak => D_j b (y :: a) Break
           | EJoin adv st' => exists a1 a2, y :: a = a1 ++ a2 /\ adv = length (encode a1)
               /\ (forall p q, a1 = p ++ q -> q <> [] -> D_j (b ++ p) (q ++ a2) Join) /\ j_Sim st' (b ++ a1) a2
           | _ => False
           end.
  Proof.
    intros st b y a Hs HSim.
    pose proof (scalars_mid _ _ _ Hs) as Hys. pose proof (P_in y Hys) as Hy. pose proof (M_in mid y Hys) as HyM.
    assert (Has : scalars a) by (apply Forall_app in Hs; destruct Hs as [_ Hs]; exact (Forall_inv_tail Hs)).
    unfold w_erules. cbv zeta.
    fold (up_ll (ws_current st) (ws_lastEx st) (ws_lastLastEx st)). fold (up_ex (ws_current st) (ws_lastEx st)).
    rewrite encode_cons. rewrite slice_from_ok by (rewrite app_length; lia). cbn [bind].
    rewrite skipn_app, skipn_all, Nat.sub_diag. cbn [app skipn].
    assert (One : forall p q, [y] = p ++ q -> q <> [] -> p = [] /\ q = [y]).
    { intros p q Hpq Hq. destruct p as [|z p]; [auto|]. injection Hpq as <- Hpq. symmetry in Hpq. apply app_eq_nil in Hpq. tauto. }
    destruct HSim as [HN|HJ].
    2:{ (* the character found by looking ahead *)
      destruct HJ as (y0 & a' & b0 & l & Ey & -> & Hl & EN & EI & HJ & Hlx & Hll). injection Ey as <- <-.
      unfold up_ex, up_ll. rewrite EI. cbn [negb]. rewrite <- jumps_M in HJ.
      pose proof (jumps_y _ _ _ HJ) as HyL.
      assert (EYI : is (P y) _Ignore = false /\ is (P y) _RegionalIndicator = false /\ is (P y) _NL = false).
      { rewrite M_other in HyL by reflexivity. generalize dependent (P y). clear. intros c Hc. intros. unfold wV in Hc. cbn [In] in Hc.
        repeat (destruct Hc as [<-|Hc]; [first [discriminate HyL | repeat split; reflexivity]|]). contradiction. }
      destruct EYI as (EYI & EYR & EYN).
      rewrite (w_jump_j mid lead) by assumption. cbn [bind]. eexists; split; [reflexivity|]. exists [y], a. split; [reflexivity|].
      split; [unfold encode; cbn [map concat]; rewrite app_nil_r; reflexivity|]. split.
      - intros p q Hpq Hq. destruct (One p q Hpq Hq) as [-> ->]. rewrite app_nil_r. cbn [D_j app]. intros HL.
        pose proof (m_spec mid b0 l y a) as HW. cbv zeta in HW. rewrite Hlx in HW.
        rewrite (v_jump_j mid lead) in HW; [exact HW|rewrite M_nl; exact Hl|exact HyM|]. rewrite <- (jumps_ext _ _ _ _ Hll HL). exact HJ.
      - left. exists (b0 ++ [l]), y. split; [reflexivity|]. split; [exact Hys|]. cbn [ws_current ws_lastEx ws_lastLastEx ws_ri].
        split; [exact (ext_refl mid lead _)|]. rewrite wtrack_snoc. unfold wstep, drops. rewrite c_IG, EYI. cbn [andb w_lx w_ll w_run JoinedFacts.mval].
        rewrite c_IG, EYI. unfold up_ex, up_ll. rewrite M_ign, EYI. cbn [negb].
        split; [exact (ext_refl mid lead _)|]. split; [intros _; rewrite Hlx; apply guards_ext; exact (ext_refl mid lead _)|]. rewrite M_ri, EYR. discriminate. }
    destruct HN as (b0 & x & -> & Hx & Hcur & HEx & HG & HRI).
    set (t := wtrack (b0 ++ [x])) in *.
    set (lx' := up_ex (ws_current st) (ws_lastEx st)) in *. set (llm := up_ll (ws_current st) (ws_lastEx st) (ws_lastLastEx st)) in *.
    assert (HL : w_l t = Some x) by (destruct (wtrack_facts (b0 ++ [x])) as (HL & _); unfold t; rewrite HL, last_char_snoc; reflexivity).
    pose proof (m_spec mid b0 x y a) as HS. cbv zeta in HS. fold t in HS.
    destruct (seek_text words_lookup _Ignore P w_lk w_lookup_cp a Has) as (a1 & a2 & Ea & Hsk & Hn & Hsub).
    assert (HD := w_rules_j mid lead (M x) (ws_current st) (mval (w_lx t)) lx' llm (mval (w_ll t)) (ws_ri st) (w_run t) (M y) (nextv a)
      (length (utf8 y)) (length (encode a1)) (encode a) HyM (fun props => Hsub props) Hcur HEx).
    assert (HI3 : is (P y) _Ignore = true -> is (P y) _AHLetter = false /\ is (P y) _HebrewLetter = false /\ is (P y) _Numeric = false).
    { intros E. generalize dependent (P y). clear. intros c Hc. intros. unfold wV in Hc. cbn [In] in Hc.
      repeat (destruct Hc as [<-|Hc]; [first [discriminate E | repeat split; reflexivity]|]). contradiction. }
    assert (HNLx : is (M x) _NL = true -> is (mval (w_lx t)) _Numeric = false /\ is (mval (w_lx t)) _AHLetter = false /\ is (M x) _WSegSpace = false).
    { rewrite M_nl. intros HN. destruct (nl_used x Hx HN) as (N1 & N2 & N3 & N4 & _). unfold t. rewrite mtrack_lx by exact N1. rewrite !M_other by reflexivity. auto. }
    specialize (HD HNLx).
    assert (HGy : is (M x) _NL = false -> guards_j (M y) (mval (w_lx t)) lx' llm (mval (w_ll t))).
    { rewrite M_nl. intros HN. specialize (HG HN). cbn [SeekText.nextv] in HG. unfold skipped in HG. unfold JoinersConform.guards_j in *.
      rewrite !(M_other mid y) by reflexivity. destruct (is (P y) _Ignore) eqn:EI; [|exact HG].
      destruct (HI3 eq_refl) as (-> & -> & ->). repeat split; intros; discriminate. }
    specialize (HD HGy HRI (mtrack_run (b0 ++ [x]))).
    destruct (w_rules _ _ _ _ _ _ _ _) as [[adv ri'| |]| |]; try contradiction; cbn [bind].
    2:{ eexists; split; [reflexivity|]. rewrite HD in HS. exact HS. }
    destruct HD as (HJ & HNI & HR2 & HA). eexists; split; [reflexivity|].
    assert (HSJ : D_j (b0 ++ [x]) (y :: a) Join). { intros HL0. rewrite (HJ HL0) in HS. exact HS. }
    assert (Hstep : is (P y) _Ignore = false -> wtrack ((b0 ++ [x]) ++ [y]) = {| w_l := Some y; w_lx := Some y; w_ll := w_lx t; w_run := if wri y then S (w_run t) else 0%nat |}).
    { intros EI. rewrite wtrack_snoc. fold t. unfold wstep, drops. rewrite c_IG, EI. reflexivity. }
    rewrite M_ign in *. rewrite M_nl in *. rewrite M_ri in *.
    destruct HA as [(-> & HR1)|(-> & EI & EN & HJP)].
    - exists [y], a. split; [reflexivity|]. split; [unfold encode; cbn [map concat]; rewrite app_nil_r; reflexivity|]. split.
      + intros p q Hpq Hq. destruct (One p q Hpq Hq) as [-> ->]. rewrite app_nil_r. exact HSJ.
      + left. exists (b0 ++ [x]), y. split; [reflexivity|]. split; [exact Hys|]. cbn [ws_current ws_lastEx ws_lastLastEx ws_ri]. split; [exact (ext_refl mid lead _)|].
        destruct (is (P y) _Ignore) eqn:EI.
        * rewrite wtrack_snoc. fold t. unfold wstep. rewrite HL. unfold drops. rewrite c_IG, EI, c_LE, (HNI eq_refl). cbn [negb andb w_lx w_ll w_run].
          unfold up_ex, up_ll. rewrite M_ign, EI. cbn [negb]. specialize (HG (HNI eq_refl)). cbn [SeekText.nextv] in HG. unfold skipped in HG. rewrite EI in HG.
          rewrite HR2 by (apply ign_cases; assumption). auto.
        * rewrite Hstep by reflexivity. cbn [w_lx w_ll w_run JoinedFacts.mval]. rewrite c_IG, EI. unfold up_ex, up_ll. rewrite M_ign, EI. cbn [negb].
          split; [exact (ext_refl mid lead _)|]. split; [intros _; apply guards_ext; exact HEx|]. rewrite M_ri. intros HRy. destruct (HR1 HRy) as [HRl ->]. specialize (HRI HRl).
          unfold wri. change (wc WB_Regional_Indicator y) with (spred RI y). rewrite c_RI, HRy. rewrite Nat.odd_succ, Nat.even_succ, <- Nat.negb_even, <- HRI, Nat.negb_odd. reflexivity.
    - destruct Hn as [[_ Hn]|(z & r & -> & Hz & Hn)]; [rewrite Hn, jumps_0 in HJP; discriminate|]. rewrite Hn in HJP.
      assert (Hzs : scalar z). { rewrite Ea in Has. exact (scalars_mid _ _ _ Has). }
      assert (HV : Forall (fun c => In (P c) wV) a1).
      { rewrite Ea in Has. apply Forall_app in Has. destruct Has as [Has _]. eapply Forall_impl; [|exact Has]. exact P_in. }
      unfold skipped in Hsk.
      exists (y :: a1), (z :: r). split; [rewrite Ea; reflexivity|]. split; [rewrite encode_cons, app_length; reflexivity|]. split.
      + intros p q Hpq Hq. destruct p as [|y0 p].
        * cbn [app] in Hpq. rewrite <- Hpq, app_nil_r. cbn [app]. rewrite <- Ea. exact HSJ.
        * injection Hpq as <- Hpq. destruct q as [|i q]; [congruence|]. rewrite Hpq in Hsk, HV. apply Forall_app in Hsk, HV.
          destruct Hsk as [Hp Hi], HV as [Vp Vi]. apply Forall_inv in Hi, Vi.
          destruct (track_ign p (b0 ++ [x]) y EN Hp Vp) as (b' & l & E1 & _ & E3 & _). rewrite E1. cbn [app D_j]. intros _.
          apply m_ign; assumption.
      + right. destruct (track_ign a1 (b0 ++ [x]) y EN Hsk HV) as (b' & l & E1 & E2 & E3 & E4 & E5 & E6).
        exists z, r, b', l. split; [reflexivity|]. split; [exact E1|]. split; [exact E3|]. cbn [ws_current ws_lastEx]. rewrite M_nl, M_ign.
        split; [exact EN|]. split; [exact EI|]. split; [exact HJP|].
        rewrite E4, E5, Hstep by exact EI. cbn [w_lx w_ll JoinedFacts.mval]. rewrite c_IG, EI. split; [reflexivity|exact HEx].
  Qed.
End Joined.
