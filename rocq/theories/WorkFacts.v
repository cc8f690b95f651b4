(** The work of reading through a Scanner, for any SplitFunc whose own work is paid by a potential. *)
From Verif Require Import Base ListFacts Cost Engine SpecIter SpecApi Drive ApiFacts ConformApi Scanner SpecReader ScannerFacts ReaderFacts SpecJoiners AnsiCuts Prompt SpecLong LongFacts SpecBuffer BufferFacts CountScanner SpecWork.
Local Open Scope nat_scope.

Lemma result_scaled : forall A p (m : T A), result (scaled p m) = result m.
Proof. reflexivity. Qed.
Lemma cost_scaled : forall A p (m : T A), cost (scaled p m) = p * cost m.
Proof. reflexivity. Qed.
Lemma r_shift : forall pc s, result (t_shift pc s) = shift s.
Proof. intros. unfold t_shift. destruct (_ && _); reflexivity. Qed.
Lemma r_grow : forall pc s, result (t_grow pc s) = grow s.
Proof. intros. unfold t_grow. destruct (Nat.eqb _ _); [|reflexivity]. destruct (grow s) as [[g|]| |]; reflexivity. Qed.
Lemma c_shift : forall pc s, cost (t_shift pc s) <= pc * (sc_end s - sc_start s).
Proof. intros. unfold t_shift. destruct (_ && _); [rewrite cost_steps; apply le_n|rewrite cost_free; apply Nat.le_0_l]. Qed.
Lemma c_grow : forall pc s, cost (t_grow pc s) <= pc * (sc_end s - sc_start s).
Proof. intros. unfold t_grow. destruct (Nat.eqb _ _); [|rewrite cost_free; apply Nat.le_0_l]. destruct (grow s) as [[g|]| |]; rewrite ?cost_steps, ?cost_free; auto using le_n, Nat.le_0_l. Qed.
Lemma reads_pos : forall rd tries s r, 1 <= reads_of rd tries s r.
Proof. intros rd [|tries] s r; cbn [reads_of]; destruct (rd_read rd r _) as [[bs err] r']; destruct (_ <? length bs); try lia; cbv zeta; destruct err; try lia; destruct (0 <? length bs); lia. Qed.

(** ** Results *)
Section Results.
  Variables pw pc pr : nat.
  Variable ts : bytes -> bool -> T split_out.
  Variable f : splitfun.
  Hypothesis RS : forall d e, result (ts d e) = f d e.
  Variable rd : reader.
  Definition t_more fuel (s : scanner) (r : rd_St rd) : T (bool * scanner * rd_St rd) :=
    match sc_err s with
    | Some _ => free (Ok (false, with_buf s (sc_buf s) 0 0, r))
    | None =>
      s <~ t_shift pc s ;;
      g <~ t_grow pc s ;;
      match g with
      | None => free (Ok (false, set_err s ErrTooLong, r))
      | Some s => ' (s, r') <~ t_fill pr rd maxConsecutiveEmptyReads s r ;; t_scan_loop pw pc pr ts rd fuel s r'
      end
    end.
  Lemma t_round : forall fuel s r, t_scan_loop pw pc pr ts rd (S fuel) s r =
    let has_err := match sc_err s with Some _ => true | None => false end in
    _ <~ steps pw (Ok tt) ;;
    if (sc_start s <? sc_end s)%nat || has_err then
      d <~ free (slice (sc_buf s) (sc_start s) (sc_end s)) ;;
      o <~ scaled pw (ts d has_err) ;;
      match so_err o with
      | Some e => free (Ok (false, set_err s (SSplit e), r))
      | None =>
        if (so_advance o <? 0)%Z then free (Ok (false, set_err s ErrNegativeAdvance, r))
        else
          let n := Z.to_nat (so_advance o) in
          if (sc_end s - sc_start s <? n)%nat then free (Ok (false, set_err s ErrAdvanceTooFar, r))
          else
            let s := with_buf s (sc_buf s) (sc_start s + n) (sc_end s) in
            match so_token o with
            | Some tok =>
              if negb has_err || (0 <? n)%nat then free (Ok (true, with_token s (Some tok) 0, r))
              else if (maxConsecutiveEmptyReads <? S (sc_empties s))%nat then free Panic
              else free (Ok (true, with_token s (Some tok) (S (sc_empties s)), r))
            | None => t_more fuel (with_token s None (sc_empties s)) r
            end
      end
    else t_more fuel s r.
  Proof. reflexivity. Qed.
  Lemma shift_split : forall s s', shift s = Ok s' -> sc_split s' = sc_split s.
  Proof. intros s s' H. unfold shift in H. destruct (_ && _); [|injection H as <-; reflexivity]. destruct (slice _ _ _); [|discriminate|discriminate]. injection H as <-. reflexivity. Qed.
  Lemma grow_split : forall s s', grow s = Ok (Some s') -> sc_split s' = sc_split s.
  Proof. intros s s' H. unfold grow in H. destruct (Nat.eqb _ _); [|injection H as <-; reflexivity]. cbv zeta in H. destruct (_ || _); [discriminate|]. destruct (slice _ _ _); [|discriminate|discriminate]. injection H as <-. reflexivity. Qed.
  Lemma fill_split : forall tries s r, sc_split (fst (fill rd tries s r)) = sc_split s.
  Proof.
    induction tries as [|tries IH]; intros s r; cbn [fill]; destruct (rd_read rd r _) as [[bs err] r']; (destruct (_ <? length bs); [reflexivity|]); cbv zeta; (destruct err; [reflexivity|]);
      (destruct (0 <? length bs); [reflexivity|]); [reflexivity|]. rewrite IH. reflexivity.
  Qed.
  Lemma r_scan_loop : forall fuel s r, sc_split s = f -> result (t_scan_loop pw pc pr ts rd fuel s r) = scan_loop rd fuel s r.
  Proof.
    induction fuel as [|fuel IH]; intros s r HF; [reflexivity|]. rewrite t_round, scan_round. cbv zeta. rewrite result_bind, result_steps. cbn [bind].
    assert (MORE : forall s0, sc_split s0 = f -> result (t_more fuel s0 r) = more_ rd fuel s0 r).
    { intros s0 F0. unfold t_more, more_. generalize maxConsecutiveEmptyReads. intros mc. destruct (sc_err s0); [reflexivity|]. rewrite result_bind, r_shift. destruct (shift s0) as [s1| |] eqn:E1; [|reflexivity|reflexivity]. cbn [bind].
      rewrite result_bind, r_grow. destruct (grow s1) as [[s2|]| |] eqn:E2; try reflexivity. cbn [bind]. rewrite result_bind. unfold t_fill. rewrite result_steps. cbn [bind].
      pose proof (fill_split mc s2 r) as F3. destruct (fill rd mc s2 r) as [s3 r3]. apply IH. cbn [fst] in F3. rewrite F3, (grow_split _ _ E2), (shift_split _ _ E1). exact F0. }
    destruct (_ || _); [|apply MORE; exact HF]. rewrite result_bind, result_free. apply bind_ext; [reflexivity|]. intros d. rewrite result_bind, result_scaled, RS, <- HF. apply bind_ext; [reflexivity|]. intros o.
    destruct (so_err o); [reflexivity|]. destruct (_ <? 0)%Z; [reflexivity|]. destruct (_ <? Z.to_nat _); [reflexivity|]. destruct (so_token o); [|apply MORE; exact HF].
    destruct (_ || _); [reflexivity|]. destruct (_ <? _); reflexivity.
  Qed.
  Lemma scan_split : forall fuel s r b s' r', scan_loop rd fuel s r = Ok (b, s', r') -> sc_split s' = sc_split s.
  Proof.
    induction fuel as [|fuel IH]; intros s r b s' r' H; [discriminate|]. rewrite scan_round in H. cbv zeta in H.
    assert (MORE : forall s0, sc_split s0 = sc_split s -> more_ rd fuel s0 r = Ok (b, s', r') -> sc_split s' = sc_split s).
    { clear H. intros s0 F0 HM. unfold more_ in HM. generalize dependent maxConsecutiveEmptyReads. intros mc HM. destruct (sc_err s0); [injection HM as <- <- <-; exact F0|]. destruct (shift s0) as [s1| |] eqn:E1; [|discriminate|discriminate]. cbn [bind] in HM.
      destruct (grow s1) as [[s2|]| |] eqn:E2; try discriminate; cbn [bind] in HM; [|injection HM as <- <- <-; rewrite <- F0; exact (shift_split _ _ E1)].
      pose proof (fill_split mc s2 r) as F3. destruct (fill rd mc s2 r) as [s3 r3]. apply IH in HM. cbn [fst] in F3. rewrite HM, F3, (grow_split _ _ E2), (shift_split _ _ E1). exact F0. }
    destruct (_ || _); [|exact (MORE s eq_refl H)]. destruct (slice _ _ _) as [d| |]; try discriminate. cbn [bind] in H. destruct (sc_split s d _) as [o| |]; try discriminate. cbn [bind] in H.
    destruct (so_err o); [injection H as <- <- <-; reflexivity|]. destruct (_ <? 0)%Z; [injection H as <- <- <-; reflexivity|]. destruct (_ <? Z.to_nat _); [injection H as <- <- <-; reflexivity|].
    destruct (so_token o); [|refine (MORE _ _ H); reflexivity]. destruct (_ || _); [injection H as <- <- <-; reflexivity|]. destruct (maxConsecutiveEmptyReads <? _); [discriminate|]. injection H as <- <- <-. reflexivity.
  Qed.
  Lemma r_scan_all : forall fuel s r, sc_split s = f -> result (t_scan_all pw pc pr ts rd fuel s r) = scan_all rd fuel s r.
  Proof.
    induction fuel as [|fuel IH]; intros s r HF; [reflexivity|]. cbn [t_scan_all scan_all]. rewrite result_bind. unfold t_Scan, Scan. rewrite r_scan_loop by exact HF.
    destruct (scan_loop rd (S fuel) (with_called s) r) as [[[b s'] r']| |] eqn:E; [|reflexivity|reflexivity]. cbn [bind]. destruct b; [|reflexivity]. rewrite result_bind. apply bind_ext; [|intros [l e]; reflexivity].
    apply IH. rewrite (scan_split _ _ _ _ _ _ E). exact HF.
  Qed.
End Results.
Lemma counts_ok : forall ts f, (forall d e, result (ts d e) = f d e) -> counts ts f.
Proof. intros ts f RS pw pc pr rd fuel s r HF. exact (r_scan_all pw pc pr ts f RS rd fuel s r HF). Qed.

(** ** The cost of a round *)
Section Rounds.
  Variables pw pc pr : nat.
  Variable ts : bytes -> bool -> T split_out.
  Variable f : splitfun.
  Hypothesis RS : forall d e, result (ts d e) = f d e.
  Variable rd : reader.
  Notation loop := (t_scan_loop pw pc pr ts rd).
  Lemma more_cost : forall fuel s0 r s1 s2 s3 r3, sc_err s0 = None -> shift s0 = Ok s1 -> grow s1 = Ok (Some s2) -> fill rd maxConsecutiveEmptyReads s2 r = (s3, r3) ->
    cost (t_more pw pc pr ts rd fuel s0 r) = cost (t_shift pc s0) + cost (t_grow pc s1) + pr * reads_of rd maxConsecutiveEmptyReads s2 r + cost (loop fuel s3 r3).
  Proof.
    intros fuel s0 r s1 s2 s3 r3 X HS HG HF. unfold t_more. rewrite X. rewrite (cost_bind _ _ _ _ s1) by (rewrite r_shift; exact HS). rewrite (cost_bind _ _ _ _ (Some s2)) by (rewrite r_grow; exact HG).
    generalize dependent maxConsecutiveEmptyReads. intros mc HF. rewrite (cost_bind _ _ _ _ (s3, r3)) by (unfold t_fill; rewrite result_steps, HF; reflexivity). unfold t_fill. rewrite cost_steps. lia.
  Qed.
  Lemma more_long : forall fuel s0 r s1, sc_err s0 = None -> shift s0 = Ok s1 -> grow s1 = Ok None -> cost (t_more pw pc pr ts rd fuel s0 r) = cost (t_shift pc s0) + cost (t_grow pc s1).
  Proof.
    intros fuel s0 r s1 X HS HG. unfold t_more. rewrite X. rewrite (cost_bind _ _ _ _ s1) by (rewrite r_shift; exact HS). rewrite (cost_bind _ _ _ _ None) by (rewrite r_grow; exact HG). rewrite cost_free. lia.
  Qed.
  Lemma round_empty : forall fuel s r, sc_err s = None -> sc_end s <= sc_start s -> cost (loop (S fuel) s r) = pw + cost (t_more pw pc pr ts rd fuel s r).
  Proof.
    intros fuel s r X HE. rewrite t_round. cbv zeta. rewrite X, orb_false_r. rewrite (proj2 (Nat.ltb_ge _ _)) by lia. rewrite (cost_bind _ _ _ _ tt) by reflexivity. rewrite cost_steps. reflexivity.
  Qed.
  Definition erring (s : scanner) : bool := match sc_err s with Some _ => true | None => false end.
  Lemma round_more : forall fuel s r, bounds s -> (sc_start s <? sc_end s) || erring s = true -> f (pending s) (erring s) = Ok e_more ->
    cost (loop (S fuel) s r) = pw + pw * cost (ts (pending s) (erring s)) + cost (t_more pw pc pr ts rd fuel (with_token (with_buf s (sc_buf s) (sc_start s + 0) (sc_end s)) None (sc_empties s)) r).
  Proof.
    intros fuel s r HB HC HF. rewrite t_round. cbv zeta. change (match sc_err s with Some _ => true | None => false end) with (erring s). rewrite HC. rewrite (cost_bind _ _ _ _ tt) by reflexivity. rewrite cost_steps.
    rewrite (cost_bind _ _ _ _ (pending s)) by (rewrite result_free; apply pending_slice; exact HB). rewrite cost_free. rewrite (cost_bind _ _ _ _ e_more) by (rewrite result_scaled, RS; exact HF). rewrite cost_scaled.
    cbn [e_more so_err so_advance so_token]. cbn [Z.ltb Z.compare Z.to_nat]. rewrite (proj2 (Nat.ltb_ge _ _)) by lia. cbn [with_buf sc_empties]. lia.
  Qed.
  Lemma round_token : forall fuel s r n, bounds s -> (sc_start s <? sc_end s) || erring s = true -> 0 < n <= length (pending s) -> f (pending s) (erring s) = Ok (e_done n (firstn n (pending s))) ->
    cost (loop (S fuel) s r) = pw + pw * cost (ts (pending s) (erring s)).
  Proof.
    intros fuel s r n HB HC Hn HF. pose proof (pending_len s HB) as HL. rewrite t_round. cbv zeta. change (match sc_err s with Some _ => true | None => false end) with (erring s). rewrite HC.
    rewrite (cost_bind _ _ _ _ tt) by reflexivity. rewrite cost_steps.
    rewrite (cost_bind _ _ _ _ (pending s)) by (rewrite result_free; apply pending_slice; exact HB). rewrite cost_free.
    rewrite (cost_bind _ _ _ _ (e_done n (firstn n (pending s)))) by (rewrite result_scaled, RS; exact HF). rewrite cost_scaled.
    cbn [e_done so_err so_advance so_token]. rewrite (proj2 (Z.ltb_ge _ _)) by lia. rewrite Nat2Z.id. rewrite (proj2 (Nat.ltb_ge _ _)) by lia. rewrite (proj2 (Nat.ltb_lt 0 n)) by lia. rewrite orb_true_r, cost_free. lia.
  Qed.
End Rounds.

Lemma more_fills : forall rd fuel s0 r s1 s2 s3 r3, sc_err s0 = None -> shift s0 = Ok s1 -> grow s1 = Ok (Some s2) -> fill rd maxConsecutiveEmptyReads s2 r = (s3, r3) ->
  more_ rd fuel s0 r = scan_loop rd fuel s3 r3.
Proof. intros rd fuel s0 r s1 s2 s3 r3 X HS HG. unfold more_. generalize maxConsecutiveEmptyReads. intros mc HF. rewrite X, HS. cbn [bind]. rewrite HG. cbn [bind]. rewrite HF. reflexivity. Qed.
Lemma more_ends : forall rd fuel s0 r s1, sc_err s0 = None -> shift s0 = Ok s1 -> grow s1 = Ok None -> more_ rd fuel s0 r = Ok (false, set_err s1 ErrTooLong, r).
Proof. intros rd fuel s0 r s1 X HS HG. unfold more_. generalize maxConsecutiveEmptyReads. intros mc. rewrite X, HS. cbn [bind]. rewrite HG. reflexivity. Qed.

(** ** The whole *)
Section Work.
  Variable f : splitfun.
  Hypothesis OK : split_ok f.
  Variable k : nat.
  Hypothesis PR : prompt k f.
  Variable ts : bytes -> bool -> T split_out.
  Hypothesis RS : forall d e, result (ts d e) = f d e.
  Variable w : nat.
  (** short, or with short tokens *)
  Definition slim (D : bytes) : Prop := length D <= w + 3 \/ exists l, tokens_by f D l /\ spans_at_most k (N.of_nat w) l.
  Variable phi : bytes -> nat.
  Variables A C : nat.
  Hypothesis H1 : forall d, phi d <= A * length d.
  Hypothesis H2 : forall d x e n, d <> [] -> 0 < n <= length d -> f d e = Ok (e_done n (firstn n d)) -> (e = true -> x = []) -> slim (d ++ x) -> cost (ts d e) + 1 + phi (skipn n d) <= phi d.
  Hypothesis H3 : forall d e, f d e = Ok e_more -> length d <= w + 3 -> cost (ts d e) <= C * length d.
  Variable rd : reader.
  Definition M : nat := (C + A + 2) * (w + 4).
  Definition paid (s : scanner) (r : rd_St rd) (rest : bytes) : Prop :=
    sc_split s = f /\ bounds s /\ ((sc_err s <> None /\ rest = [] /\ slim (pending s)) \/ exists D e l, live f rd s r D rest e /\ tokens_by f D l /\ spans_at_most k (N.of_nat w) l).
  Notation cS := (t_scan_loop 1 1 1 ts rd).
  Notation cR := (t_scan_loop 0 0 1 ts rd).

  Lemma scan_work : forall fuel s r rest b s' r', paid s r rest -> scan_loop rd fuel s r = Ok (b, s', r') -> exists rest', paid s' r' rest' /\
    cost (cS fuel s r) + (if b then phi (pending s') + A * length rest' else 0) <= phi (pending s) + A * length rest + M * (cost (cR fuel s r) + if b then 0 else 1).
  Proof.
    induction fuel as [|fuel IH]; intros s r rest b s' r' (HF & HB & HC) H; [discriminate|].
    assert (HM1 : 1 <= M) by (unfold M; nia).
    destruct HC as [(HX & -> & HSl)|(D & e & l & HL & HT & HM)].
    { destruct (sc_err s) as [x|] eqn:EX; [|congruence]. assert (HE : erring s = true) by (unfold erring; rewrite EX; reflexivity). assert (HO : (sc_start s <? sc_end s) || erring s = true) by (rewrite HE, orb_true_r; reflexivity).
      destruct (scan_done f OK rd fuel s r x HF HB EX) as [(HP & s1 & HSc & HX1 & HF1 & HB1 & HP1 & _)|(n & s1 & Hn & Hf & HSc & _ & HF1 & HB1 & HX1 & HP1)]; rewrite HSc in H; injection H as <- <- <-; exists [];
        (split; [split; [exact HF1|]; split; [exact HB1|]; left; split; [rewrite HX1; discriminate|]; split; [reflexivity|]|]).
      - left. rewrite HP1. cbn. lia.
      - assert (Hf : f (pending s) (erring s) = Ok e_more) by (rewrite HP; apply (so_nil f OK)).
        rewrite (round_more 1 1 1 ts f RS rd fuel s r HB HO Hf). unfold t_more at 1. cbn [with_token with_buf sc_err]. rewrite EX, cost_free.
        pose proof (H3 _ _ Hf ltac:(rewrite HP; cbn; lia)) as HC3. rewrite HP in *. cbn [length] in *. nia.
      - rewrite HP1. destruct HSl as [HSl|(l & HT & HM)]; [left; rewrite skipn_length; lia|]. right. inversion HT as [HE0|d1 n1 l1 Hs1 Hn1 HT1 HE0]; subst; [rewrite <- HE0 in Hn; cbn in Hn; lia|].
        rewrite Hf in Hs1. assert (n1 = n) by (unfold e_done in Hs1; injection Hs1; lia). subst n1. exists l1. split; [exact HT1|exact (span_tail k (N.of_nat w) _ _ HM)].
      - rewrite <- HE in Hf. rewrite (round_token 1 1 1 ts f RS rd fuel s r n HB HO Hn Hf). rewrite HP1. pose proof (H2 (pending s) [] (erring s) n ltac:(intros E; rewrite E in Hn; cbn in Hn; lia) Hn Hf (fun _ => eq_refl) ltac:(rewrite app_nil_r; exact HSl)). cbn [length]. nia. }
    pose proof HL as (_ & _ & HX & HD & ED). pose proof HB as (B1 & B2). pose proof (pending_len s HB) as HPL. assert (HE : erring s = false) by (unfold erring; rewrite HX; reflexivity).
    assert (MORE : forall s0 x, sc_split s0 = f -> bounds s0 -> sc_err s0 = None -> pending s0 = pending s -> f (pending s) false = Ok e_more ->
      x <= 1 + C * length (pending s) -> cost (cS (S fuel) s r) = x + cost (t_more 1 1 1 ts rd fuel s0 r) -> cost (cR (S fuel) s r) = cost (t_more 0 0 1 ts rd fuel s0 r) ->
      more_ rd fuel s0 r = Ok (b, s', r') -> exists rest', paid s' r' rest' /\
      cost (cS (S fuel) s r) + (if b then phi (pending s') + A * length rest' else 0) <= phi (pending s) + A * length rest + M * (cost (cR (S fuel) s r) + if b then 0 else 1)).
    { intros s0 x F0 B0 X0 P0 HMo Hx ES ER HM0. rewrite ES, ER. pose proof (pending_len s0 B0) as HPL0. rewrite P0 in HPL0.
      assert (HPr : length (pending s) <= w + 3).
      { rewrite ED in HT. pose proof (PR _ _ _ HMo HT). pose proof (span_head k (N.of_nat w) 0%N l HM). lia. }
      destruct (shift_ok s0 B0) as (s1 & HS & Bs1 & P1 & F1 & X1 & M1 & L1 & Z1 & T1). pose proof (pending_len s1 Bs1) as HPL1. rewrite P1, P0 in HPL1.
      pose proof (c_shift 1 s0) as C1. pose proof (c_grow 1 s1) as C2. pose proof (c_shift 0 s0) as C3. pose proof (c_grow 0 s1) as C4. rewrite <- HPL0 in C1. rewrite <- HPL1 in C2. cbn [Nat.mul] in C3, C4.
      assert (HM2 : 2 + (C + A + 2) * length (pending s) <= M).
      { unfold M. replace (w + 4) with (length (pending s) + 1 + (w + 3 - length (pending s))) by lia. rewrite !Nat.mul_add_distr_l. nia. }
      destruct (grow_ok s1 Bs1 Z1) as [(s2 & HG & Bs2 & P2 & F2 & X2 & M2 & R2)|(HG & HLim & HW)].
      2:{ rewrite (more_ends _ _ _ _ _ X0 HS HG) in HM0. injection HM0 as <- <- <-. exists []. split; [split; [cbn [set_err sc_split]; congruence|]; split; [exact Bs1|]; left; split; [cbn [set_err sc_err]; rewrite X1, X0; discriminate|]; split; [reflexivity|]; left; change (pending (set_err s1 ErrTooLong)) with (pending s1); rewrite P1, P0; exact HPr|].
          rewrite (more_long 1 1 1 ts rd fuel s0 r s1 X0 HS HG). nia. }
      destruct (fill_ok rd maxConsecutiveEmptyReads s2 r rest e Bs2 ltac:(congruence) R2 HD) as (s3 & r3 & EF & F3 & Bs3 & M3 & HC).
      rewrite (more_cost 1 1 1 ts rd fuel s0 r s1 s2 s3 r3 X0 HS HG EF), (more_cost 0 0 1 ts rd fuel s0 r s1 s2 s3 r3 X0 HS HG EF). pose proof (reads_pos rd maxConsecutiveEmptyReads s2 r) as HRP.
      rewrite (more_fills _ _ _ _ _ _ _ _ X0 HS HG EF) in HM0. clear EF. generalize dependent (reads_of rd maxConsecutiveEmptyReads s2 r). intros q HRP. assert (P3 : pending s2 = pending s) by congruence. rewrite P3 in HC.
      assert (HC' : exists rest3, paid s3 r3 rest3 /\ phi (pending s3) + A * length rest3 <= A * length (pending s) + A * length rest).
      { destruct HC as [(X3 & bs & rest' & Hbs & Er & P4 & HD' & HLV)|[(X3 & P4)|(X3 & P4 & HNL)]].
        - exists rest'. split.
          + split; [congruence|]. split; [exact Bs3|]. right. exists D, e, l. split; [|auto]. split; [congruence|]. split; [exact Bs3|]. split; [exact X3|]. split; [exact HD'|]. rewrite ED, P4, Er, app_assoc. reflexivity.
          + pose proof (H1 (pending s3)) as HH. rewrite P4, app_length in HH. rewrite P4, Er, app_length. rewrite !Nat.mul_add_distr_l in *. lia.
        - exists []. split; [split; [congruence|]; split; [exact Bs3|]; left; split; [congruence|]; split; [reflexivity|]; right; exists l; rewrite P4, <- ED; auto|]. pose proof (H1 (pending s3)) as HH. rewrite P4, app_length in HH. rewrite P4. cbn [length]. rewrite !Nat.mul_add_distr_l in *. lia.
        - exists []. split; [split; [congruence|]; split; [exact Bs3|]; left; split; [congruence|]; split; [reflexivity|]; left; rewrite P4; exact HPr|]. pose proof (H1 (pending s3)) as HH. rewrite P4 in HH. rewrite P4. cbn [length]. lia. }
      destruct HC' as (rest3 & HP3 & HPH). destruct (IH s3 r3 rest3 b s' r' HP3 HM0) as (rest' & HP' & HI). exists rest'. split; [exact HP'|].
      set (c := cost (cR fuel s3 r3)) in *. set (cs := cost (cS fuel s3 r3)) in *. assert (HQ : M + q <= M * q + 1) by nia.
      assert (HA : (if b then 0 else 1) <= 1) by (destruct b; lia). set (g := if b then 0 else 1) in *. set (y := if b then _ else _) in *. replace (cost (t_shift 0 s0)) with 0 by lia. replace (cost (t_grow 0 s1)) with 0 by lia.
      replace (M * (0 + 0 + 1 * q + c + g)) with (M * q + M * (c + g)) by lia. lia. }
    rewrite scan_round in H. cbv zeta in H. rewrite HX, orb_false_r in H. destruct (sc_start s <? sc_end s) eqn:ES.
    2:{ apply Nat.ltb_ge in ES. assert (HPe : pending s = []) by (apply length_zero_iff_nil; lia).
        refine (MORE s 1 HF HB HX eq_refl _ _ _ _ H); [rewrite HPe; apply (so_nil f OK)|lia| |]; rewrite round_empty; auto. }
    assert (HO : (sc_start s <? sc_end s) || erring s = true) by (rewrite ES; reflexivity).
    rewrite (pending_slice s HB), HF in H. cbn [bind] in H. destruct (so_stream f OK (pending s)) as [HMo|(n & Hn & Hs & Hst)].
    - rewrite HMo in H. cbn [bind e_more so_err so_advance so_token] in H. cbn [Z.ltb Z.compare Z.to_nat] in H.
      rewrite (proj2 (Nat.ltb_ge _ _)) in H by lia.
      set (s0 := with_token (with_buf s (sc_buf s) (sc_start s + 0) (sc_end s)) None (sc_empties s)) in *.
      assert (P0 : pending s0 = pending s). { unfold pending, s0. cbn [with_token with_buf sc_start sc_end sc_buf]. rewrite Nat.add_0_r. reflexivity. }
      assert (HPr : length (pending s) <= w + 3).
      { pose proof HT as HT'. rewrite ED in HT'. pose proof (PR _ _ _ HMo HT'). pose proof (span_head k (N.of_nat w) 0%N l HM). lia. }
      pose proof HMo as HMo'. rewrite <- HE in HMo'. pose proof (H3 _ _ HMo' HPr) as HC3.
      refine (MORE s0 (1 + cost (ts (pending s) (erring s))) HF _ HX P0 HMo _ _ _ H).
      + unfold bounds, s0. cbn [with_token with_buf sc_start sc_end sc_buf]. lia.
      + lia.
      + rewrite (round_more 1 1 1 ts f RS rd fuel s r HB HO HMo'). fold s0. lia.
      + rewrite (round_more 0 0 1 ts f RS rd fuel s r HB HO HMo'). fold s0. lia.
    - pose proof Hs as Hs'. rewrite <- HE in Hs'. rewrite Hs in H. cbn [bind e_done so_err so_advance so_token] in H. rewrite (proj2 (Z.ltb_ge _ _)) in H by lia. rewrite Nat2Z.id in H.
      rewrite (proj2 (Nat.ltb_ge _ _)) in H by lia. cbn [negb orb] in H. injection H as <- <- <-.
      assert (HPN : forall tok k, pending (with_token (with_buf s (sc_buf s) (sc_start s + n) (sc_end s)) tok k) = skipn n (pending s)).
      { intros. unfold pending. cbn [with_token with_buf sc_start sc_end sc_buf]. rewrite skipn_firstn_comm, skipn_skipn. f_equal; [lia|]. f_equal. lia. }
      assert (HB1 : forall t k, bounds (with_token (with_buf s (sc_buf s) (sc_start s + n) (sc_end s)) t k)) by (intros; unfold bounds; cbn [with_token with_buf sc_start sc_end sc_buf]; lia).
      exists rest. rewrite (round_token 1 1 1 ts f RS rd fuel s r n HB HO Hn Hs'), HPN. split.
      2:{ pose proof (H2 (pending s) rest (erring s) n ltac:(intros E; rewrite E in Hn; cbn in Hn; lia) Hn Hs' ltac:(rewrite HE; discriminate) ltac:(right; exists l; rewrite <- ED; auto)). lia. }
      split; [exact HF|]. split; [apply HB1|]. right. rewrite ED in HT. inversion HT as [HE0|d1 n1 l1 Hs1 Hn1 HT1 HE0]; subst.
      { symmetry in HE0. apply app_eq_nil in HE0. destruct HE0 as (HE0 & _). rewrite HE0 in Hn. cbn in Hn. lia. }
      rewrite (Hst rest true) in Hs1. assert (n1 = n) by (unfold e_done in Hs1; injection Hs1; lia). subst n1.
      exists (skipn n (pending s ++ rest)), e, l1. split; [|split; [exact HT1|exact (span_tail k (N.of_nat w) _ _ HM)]].
      split; [exact HF|]. split; [apply HB1|]. split; [exact HX|]. split; [exact HD|]. rewrite skipn_app_le by lia. rewrite HPN. reflexivity.
  Qed.
  Lemma all_work : forall fuel s r rest out, paid s r rest -> scan_all rd fuel s r = Ok out ->
    cost (t_scan_all 1 1 1 ts rd fuel s r) <= phi (pending s) + A * length rest + M * (cost (t_scan_all 0 0 1 ts rd fuel s r) + 1).
  Proof.
    induction fuel as [|fuel IH]; intros s r rest out HP H; [discriminate|]. cbn [scan_all] in H. apply bind_Ok in H. destruct H as ([[b s'] r'] & HS & H). unfold Scan in HS.
    pose proof HP as (HF & _).
    destruct (scan_work (S fuel) (with_called s) r rest b s' r' HP HS) as (rest' & HP' & HC). change (pending (with_called s)) with (pending s) in HC. cbn [t_scan_all].
    rewrite !(cost_bind _ _ (t_Scan _ _ _ _ _ _ _ _) _ (b, s', r')) by (unfold t_Scan; rewrite (r_scan_loop _ _ _ ts f RS) by exact HF; exact HS). unfold t_Scan. destruct b.
    - apply bind_Ok in H. destruct H as ([l e] & HA & H). pose proof (IH s' r' rest' _ HP' HA) as HI. pose proof HP' as (HF' & _).
      rewrite !(cost_bind _ _ (t_scan_all _ _ _ _ _ _ _ _) _ (l, e)) by (rewrite (r_scan_all _ _ _ ts f RS) by exact HF'; exact HA). rewrite !cost_free. nia.
    - rewrite !cost_free. nia.
  Qed.
End Work.
Lemma reads_within_ok : forall f, split_ok f -> forall k, prompt k f -> forall ts, (forall d e, result (ts d e) = f d e) -> forall (phi : nat -> bytes -> nat) (A C : nat -> nat),
  (forall w d, phi w d <= A w * length d) ->
  (forall w d x e n, d <> [] -> 0 < n <= length d -> f d e = Ok (e_done n (firstn n d)) -> (e = true -> x = []) -> slim f k w (d ++ x) -> cost (ts d e) + 1 + phi w (skipn n d) <= phi w d) ->
  (forall w d e, f d e = Ok e_more -> length d <= w + 3 -> cost (ts d e) <= C w * length d) -> forall iterate,
  (forall d fuel l, length d < fuel -> chop f (S (length d)) d = Ok l -> iterate fuel d = Ok l) -> reads_within A (fun w => (C w + A w + 2) * (w + 4)) k iterate ts f.
Proof.
  intros f OK k PR ts RS phi A C H1 H2 H3 iterate AGREE rd r d e s l w fuel fuel' out HD HS Hf HI HM HA. unfold scan_steps, scan_reads.
  destruct (tb_ex0 f (so_eof f OK) (S (length d)) d ltac:(lia)) as (l' & Hl').
  assert (iterate fuel d = Ok l') as HI' by (apply AGREE; [lia|]; apply (tb_chop _ _ _ Hl'); lia). rewrite HI in HI'. injection HI' as <-.
  pose proof (fresh_live _ _ _ _ _ _ HS HD) as HL.
  assert (HP : paid f k w rd s r d). { split; [apply HL|]. split; [apply HL|]. right. exists d, e, l. auto. }
  pose proof (all_work f OK k PR ts RS w (phi w) (A w) (C w) (H1 w) (H2 w) (H3 w) rd fuel' s r d out HP HA) as HW.
  assert (HPe : pending s = []). { destruct HL as (_ & _ & _ & _ & E). apply (f_equal (@length N)) in E. rewrite app_length in E. apply length_zero_iff_nil. lia. }
  pose proof (H1 w (pending s)) as HH. rewrite HPe in *. cbn [length] in HH. unfold M in HW. lia.
Qed.
