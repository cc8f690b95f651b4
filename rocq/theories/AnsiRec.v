(** The escape-sequence parsers recognise exactly the specified sequences. *)
From Verif Require Import Base Ansi AnsiFacts SpecAnsi.
Local Open Scope N_scope.

Lemma inRange_spec : forall lo hi b, inRange lo hi b = true <-> lo <= b <= hi.
Proof. intros. unfold inRange. rewrite andb_true_iff, !N.leb_le. tauto. Qed.
Lemma inRange_false : forall lo hi b, inRange lo hi b = false <-> ~ (lo <= b <= hi).
Proof. intros. rewrite <- inRange_spec. destruct (inRange lo hi b); split; intros; congruence. Qed.
Ltac rng := repeat match goal with
  | H : inRange _ _ _ = true |- _ => apply inRange_spec in H
  | H : inRange _ _ _ = false |- _ => apply inRange_false in H
  | |- context [inRange ?a ?b ?c] => let E := fresh "E" in destruct (inRange a b c) eqn:E
  end.

(** ** CSI *)
Definition csi_tail (seen : bool) (body : bytes) : Prop :=
  exists ps is f, body = ps ++ is ++ [f] /\ Forall parameter ps /\ Forall intermediate is /\ final f /\ (seen = true -> ps = []).
Lemma csi_sound : forall d i seen n, csiBodyLoop d i seen = n -> n <> 0%nat -> exists body v, d = body ++ v /\ n = (i + length body)%nat /\ csi_tail seen body.
Proof.
  induction d as [|b d IH]; intros i seen n H Hn; cbn [csiBodyLoop] in H; [congruence|].
  destruct (inRange 0x30 0x3F b) eqn:E1.
  - destruct seen; [congruence|]. destruct (IH _ _ _ H Hn) as (body & v & -> & -> & (ps & is & f & -> & F1 & F2 & F3 & _)).
    exists (b :: ps ++ is ++ [f]), v. split; [reflexivity|]. split; [cbn [length]; lia|]. exists (b :: ps), is, f. split; [reflexivity|]. rng.
    split; [constructor; auto|]. split; [exact F2|]. split; [exact F3|]. discriminate.
  - destruct (inRange 0x20 0x2F b) eqn:E2.
    + destruct (IH _ _ _ H Hn) as (body & v & -> & -> & (ps & is & f & -> & F1 & F2 & F3 & F4)). rewrite (F4 eq_refl). cbn [app].
      exists (b :: is ++ [f]), v. split; [reflexivity|]. split; [cbn [length]; lia|]. exists [], (b :: is), f. rng. split; [reflexivity|]. split; [constructor|]. split; [constructor; auto|]. split; [exact F3|]. reflexivity.
    + destruct (inRange 0x40 0x7E b) eqn:E3; [|congruence]. exists [b], d. rng. split; [reflexivity|]. split; [cbn; lia|]. exists [], [], b. split; [reflexivity|]. split; [constructor|]. split; [constructor|]. split; [exact E3|]. reflexivity.
Qed.
Lemma csi_inter : forall is f v i seen, Forall intermediate is -> final f -> csiBodyLoop (is ++ f :: v) i seen = (i + S (length is))%nat.
Proof.
  induction is as [|b is IH]; intros f v i seen HF Hf; cbn [app csiBodyLoop length].
  - unfold final in Hf. rng; lia.
  - inversion HF as [|? ? Hb HF']; subst. unfold intermediate in Hb. rng; try lia. rewrite IH by assumption. lia.
Qed.
Lemma csi_complete : forall body v, csi_body body -> csiBodyLength (body ++ v) = length body.
Proof.
  intros body v (ps & is & f & -> & F1 & F2 & F3). unfold csiBodyLength. rewrite <- !app_assoc. cbn [app]. enough (H : forall i, csiBodyLoop (ps ++ is ++ f :: v) i false = (i + length (ps ++ is ++ [f]))%nat) by (rewrite H; reflexivity).
  induction ps as [|b ps IH]; intros i; cbn [app].
  - rewrite csi_inter by assumption. rewrite app_length. cbn. lia.
  - inversion F1 as [|? ? Hb HF']; subst. cbn [csiBodyLoop length]. unfold parameter in Hb. rng; try lia. rewrite IH by assumption. lia.
Qed.
Lemma csi_sound0 : forall d n, csiBodyLength d = n -> n <> 0%nat -> exists body v, d = body ++ v /\ n = length body /\ csi_body body.
Proof. intros d n H Hn. destruct (csi_sound _ _ _ _ H Hn) as (body & v & -> & -> & (ps & is & f & E & F1 & F2 & F3 & _)). exists body, v. split; [reflexivity|]. split; [reflexivity|]. exists ps, is, f. auto. Qed.
Lemma csi_pos : forall body, csi_body body -> length body <> 0%nat.
Proof. intros body (ps & is & f & -> & _). rewrite !app_length. cbn. lia. Qed.

(** ** Control strings: one loop for the four *)
Fixpoint starts_with (t d : bytes) : bool :=
  match t, d with [], _ => true | x :: t', y :: d' => (x =? y) && starts_with t' d' | _ :: _, [] => false end.
Lemma starts_spec : forall t d, starts_with t d = true <-> exists r, d = t ++ r.
Proof.
  induction t as [|x t IH]; intros d; cbn [starts_with]; [split; [intros _; exists d; reflexivity|reflexivity]|]. destruct d as [|y d]; [split; [discriminate|intros (r & H); discriminate]|].
  rewrite andb_true_iff, IH, N.eqb_eq. split; [intros (-> & r & ->); exists r; reflexivity|]. intros (r & H). injection H as -> ->. eauto.
Qed.
Fixpoint find_term (terms : list bytes) (d : bytes) : option nat :=
  match terms with [] => None | t :: r => if starts_with t d then Some (length t) else find_term r d end.
Lemma find_some : forall terms d n, find_term terms d = Some n -> exists t r, In t terms /\ d = t ++ r /\ n = length t.
Proof.
  induction terms as [|t terms IH]; intros d n H; [discriminate|]. cbn [find_term] in H. destruct (starts_with t d) eqn:E.
  - injection H as <-. apply starts_spec in E. destruct E as (r & ->). exists t, r. split; [left; reflexivity|auto].
  - destruct (IH _ _ H) as (t' & r & H1 & H2). exists t', r. split; [right; exact H1|exact H2].
Qed.
Lemma find_none : forall terms d, find_term terms d = None -> forall t r, In t terms -> d <> t ++ r.
Proof.
  induction terms as [|t terms IH]; intros d H t' r HI; [destruct HI|]. cbn [find_term] in H. destruct (starts_with t d) eqn:E; [discriminate|].
  destruct HI as [->|HI]; [|exact (IH _ H _ _ HI)]. intros ->. assert (starts_with t' (t' ++ r) = true) by (apply starts_spec; eauto). congruence.
Qed.
Fixpoint gloop (terms : list bytes) (d : bytes) (i : nat) : option nat :=
  match d with
  | [] => None
  | b :: rest => match find_term terms d with
    | Some n => Some (i + n)%nat
    | None => if (b =? can) || (b =? sub) then Some i else gloop terms rest (S i)
    end
  end.

Section Strings.
  Variable terms : list bytes.
  Hypothesis NE : ~ In [] terms.
  (** The rest of a terminator starts neither like a terminator nor with CAN or SUB. *)
  Hypothesis REST : forall x c y, In (x ++ c :: y) terms -> x <> [] -> c <> CAN /\ c <> SUB /\ forall t r, In t terms -> t <> c :: r.
  (** Terminators of one another: none is a proper prefix of another. *)
  Hypothesis UNIQ : forall t t' r r', In t terms -> In t' terms -> t ++ r = t' ++ r' -> t = t'.
  Hypothesis NOC : forall t r, In t terms -> t <> CAN :: r /\ t <> SUB :: r.

  Lemma payload_nil : payload terms [].
  Proof. split; [intros []|]. split; [intros []|]. intros t Ht (p1 & p2 & E). symmetry in E. apply app_eq_nil in E. destruct E as [_ E]. apply app_eq_nil in E. destruct E as [-> _]. contradiction. Qed.
  Lemma payload_cons : forall b p, payload terms (b :: p) <-> b <> CAN /\ b <> SUB /\ (forall t r, In t terms -> b :: p <> t ++ r) /\ payload terms p.
  Proof.
    intros b p. split.
    - intros (H1 & H2 & H3). split; [intros ->; apply H1; left; reflexivity|]. split; [intros ->; apply H2; left; reflexivity|].
      split; [intros t r Ht E; apply (H3 t Ht); exists [], r; exact E|]. split; [intros H; apply H1; right; exact H|]. split; [intros H; apply H2; right; exact H|].
      intros t Ht (p1 & p2 & ->). apply (H3 t Ht). exists (b :: p1), p2. reflexivity.
    - intros (H1 & H2 & H3 & (H4 & H5 & H6)). split; [intros [H|H]; congruence || auto|]. split; [intros [H|H]; congruence || auto|].
      intros t Ht (p1 & p2 & E). destruct p1 as [|c p1]; [exact (H3 t p2 Ht E)|]. injection E as -> ->. apply (H6 t Ht). exists p1, p2. reflexivity.
  Qed.

  Lemma g_sound : forall d i n, gloop terms d i = Some n -> exists body v, d = body ++ v /\ n = (i + length body)%nat /\ string_body terms body v.
  Proof.
    induction d as [|b d IH]; intros i n H; [discriminate|]. cbn [gloop] in H. destruct (find_term terms (b :: d)) as [k|] eqn:EF.
    - injection H as <-. destruct (find_some _ _ _ EF) as (t & r & Ht & E & ->). exists t, r. split; [exact E|]. split; [reflexivity|]. left. exists [], t. split; [reflexivity|]. split; [apply payload_nil|exact Ht].
    - destruct ((b =? can) || (b =? sub)) eqn:EC.
      + injection H as <-. exists [], (b :: d). split; [reflexivity|]. split; [cbn; lia|]. right. split; [apply payload_nil|]. exists b, d. split; [reflexivity|]. apply orb_prop in EC. rewrite !N.eqb_eq in EC. exact EC.
      + apply orb_false_iff in EC. rewrite !N.eqb_neq in EC. destruct EC as [C1 C2]. destruct (IH _ _ H) as (body & v & -> & -> & HS).
        exists (b :: body), v. split; [reflexivity|]. split; [cbn [length]; lia|]. destruct HS as [(p & t & -> & HP & Ht)|(HP & c & v' & -> & HC)].
        * left. exists (b :: p), t. split; [reflexivity|]. split; [|exact Ht]. apply payload_cons. split; [exact C1|]. split; [exact C2|]. split; [|exact HP].
          intros t' r Ht' E. apply (find_none _ _ EF t' (r ++ t ++ v) Ht'). rewrite app_assoc, <- E. cbn [app]. rewrite app_assoc. reflexivity.
        * right. split; [|eauto]. apply payload_cons. split; [exact C1|]. split; [exact C2|]. split; [|exact HP].
          intros t' r Ht' E. apply (find_none _ _ EF t' (r ++ c :: v') Ht'). rewrite app_assoc, <- E. reflexivity.
  Qed.

  Lemma find_at : forall t r, In t terms -> find_term terms (t ++ r) = Some (length t).
  Proof.
    intros t r Ht. destruct (find_term terms (t ++ r)) as [n|] eqn:E; [|exfalso; exact (find_none _ _ E t r Ht eq_refl)].
    destruct (find_some _ _ _ E) as (t' & r' & Ht' & E' & ->). rewrite (UNIQ t' t r' r Ht' Ht (eq_sym E')). reflexivity.
  Qed.

  Lemma g_complete : forall body v, string_body terms body v -> forall i, gloop terms (body ++ v) i = Some (i + length body)%nat.
  Proof.
    intros body v H.
    assert (HP : exists p t w, body = p ++ t /\ payload terms p /\ ((In t terms /\ w = t ++ v) \/ (t = [] /\ w = v /\ exists c v', v = c :: v' /\ (c = CAN \/ c = SUB)))).
    { destruct H as [(p & t & -> & HP & Ht)|(HP & c & v' & E & HC)]; [exists p, t, (t ++ v); auto|]. exists body, [], v. rewrite app_nil_r. split; [reflexivity|]. split; [exact HP|]. right. split; [reflexivity|]. split; [reflexivity|]. eauto. }
    destruct HP as (p & t & w & -> & HP & HW). clear H. induction p as [|b p IH]; intros i; cbn [app].
    - destruct HW as [[Ht _]|(-> & _ & c & v' & -> & HC)].
      + destruct t as [|b t]; [contradiction|]. cbn [app gloop]. change (b :: t ++ v) with ((b :: t) ++ v). rewrite (find_at _ _ Ht). reflexivity.
      + cbn [app gloop]. destruct (find_term terms (c :: v')) as [n|] eqn:E.
        { exfalso. destruct (find_some _ _ _ E) as (t & r & Ht & E' & _). destruct t as [|b t]; [contradiction|]. injection E' as -> _. destruct (NOC _ t Ht). destruct HC as [->| ->]; congruence. }
        destruct HC as [->| ->]; cbn; f_equal; lia.
    - apply payload_cons in HP. destruct HP as (H1 & H2 & H3 & HP). cbn [gloop].
      assert (EF : find_term terms (b :: (p ++ t) ++ v) = None).
      { destruct (find_term terms _) as [n|] eqn:E; [|reflexivity]. exfalso. destruct (find_some _ _ _ E) as (t' & r' & Ht' & E' & _).
        rewrite <- app_assoc in E'. change (b :: p ++ t ++ v) with ((b :: p) ++ t ++ v) in E'.
        assert (SPL : (exists e, b :: p = t' ++ e) \/ (exists c y, t' = (b :: p) ++ c :: y /\ exists z, t ++ v = c :: z)).
        { clear - E'. revert t' E'. generalize (b :: p) as l. induction l as [|x l IH]; intros t' E'.
          - destruct t' as [|c y]; [left; exists []; reflexivity|]. right. exists c, y. split; [reflexivity|]. cbn [app] in E'. eauto.
          - destruct t' as [|c y]; [left; exists (x :: l); reflexivity|]. cbn [app] in E'. injection E' as -> E'. destruct (IH _ E') as [(e & ->)|(c' & y' & -> & Hz)]; [left; exists e; reflexivity|].
            right. exists c', y'. split; [reflexivity|exact Hz]. }
        destruct SPL as [(e & Ee)|(c & y & -> & z & Ez)]; [exact (H3 _ _ Ht' Ee)|].
        destruct (REST (b :: p) c y Ht' ltac:(discriminate)) as (R1 & R2 & R3).
        destruct HW as [[Ht _]|(-> & _ & c' & v' & -> & HC)].
        - destruct t as [|x t]; [contradiction|]. injection Ez as -> _. exact (R3 _ t Ht eq_refl).
        - injection Ez as -> _. destruct HC; congruence. }
      rewrite EF. rewrite (proj2 (N.eqb_neq b can) H1), (proj2 (N.eqb_neq b sub) H2). cbn [orb]. rewrite IH by assumption. cbn [length]. f_equal. lia.
  Qed.
End Strings.

Lemma osc7_loop : forall d i, oscLoop d i = gloop osc7 d i.
Proof.
  induction d as [|b d IH]; intros i; [reflexivity|]. cbn [oscLoop gloop osc7 find_term starts_with length]. rewrite (N.eqb_sym BEL b), (N.eqb_sym ESC b). unfold BEL, ESC, BACKSLASH, bel, esc. rewrite andb_true_r, IH.
  destruct (N.eqb_spec b 0x07); [reflexivity|]. destruct d as [|c d]; cbn [starts_with].
  - rewrite andb_false_r. reflexivity.
  - rewrite andb_true_r, (N.eqb_sym 0x5C c). destruct (N.eqb_spec b 0x1B); [subst b; destruct (c =? 0x5C); reflexivity|]. reflexivity.
Qed.
Lemma st7_loop : forall d i, stLoop d i = gloop st7 d i.
Proof.
  induction d as [|b d IH]; intros i; [reflexivity|]. cbn [stLoop gloop st7 find_term starts_with length]. rewrite (N.eqb_sym ESC b). unfold ESC, BACKSLASH, esc. rewrite IH.
  destruct d as [|c d]; cbn [starts_with].
  - rewrite andb_false_r. reflexivity.
  - rewrite andb_true_r, (N.eqb_sym 0x5C c). destruct (N.eqb_spec b 0x1B); [subst b; destruct (c =? 0x5C); reflexivity|]. reflexivity.
Qed.
Lemma osc8_loop : forall d i, oscC1Loop d i = gloop osc8 d i.
Proof.
  induction d as [|b d IH]; intros i; [reflexivity|]. cbn [oscC1Loop gloop osc8 find_term starts_with length]. rewrite (N.eqb_sym BEL b), (N.eqb_sym C1_ST b). unfold BEL, C1_ST, bel, st. rewrite !andb_true_r, IH.
  destruct (N.eqb_spec b 0x07); [reflexivity|]. destruct (N.eqb_spec b 0x9C); reflexivity.
Qed.
Lemma st8_loop : forall d i, stC1Loop d i = gloop st8 d i.
Proof.
  induction d as [|b d IH]; intros i; [reflexivity|]. cbn [stC1Loop gloop st8 find_term starts_with length]. rewrite (N.eqb_sym C1_ST b). unfold C1_ST, st. rewrite !andb_true_r, IH.
  destruct (N.eqb_spec b 0x9C); [subst b; reflexivity|]. reflexivity.
Qed.

Ltac terms_tac := repeat match goal with
  | H : In _ (_ :: _) |- _ => destruct H as [H|H]
  | H : In _ [] |- _ => destruct H
  end.
Ltac good := unfold osc7, st7, osc8, st8, BEL, ESC, BACKSLASH, C1_ST; split; [|split; [|split]];
  [ intros H; terms_tac; discriminate
  | intros x c y H Hx; terms_tac; destruct x as [|x0 [|x1 x]]; try congruence; cbn [app] in H; try discriminate H;
    try (exfalso; apply (f_equal (@length N)) in H; cbn [length] in H; rewrite app_length in H; cbn [length] in H; lia); injection H as <- <- <-;
    (split; [discriminate|split; [discriminate|intros t r Ht; terms_tac; subst t; discriminate]])
  | intros t t' r r' H H' E; terms_tac; subst t t'; cbn [app] in E; congruence
  | intros t r H; terms_tac; subst t; split; discriminate ].
Definition good_terms (terms : list bytes) : Prop := ~ In [] terms
  /\ (forall x c y, In (x ++ c :: y) terms -> x <> [] -> c <> CAN /\ c <> SUB /\ forall t r, In t terms -> t <> c :: r)
  /\ (forall t t' r r', In t terms -> In t' terms -> t ++ r = t' ++ r' -> t = t')
  /\ (forall t r, In t terms -> t <> CAN :: r /\ t <> SUB :: r).
Lemma osc7_good : good_terms osc7. Proof. good. Qed.
Lemma st7_good : good_terms st7. Proof. good. Qed.
Lemma osc8_good : good_terms osc8. Proof. good. Qed.
Lemma st8_good : good_terms st8. Proof. good. Qed.

Lemma string_complete : forall terms, good_terms terms -> forall body v, string_body terms body v -> forall i, gloop terms (body ++ v) i = Some (i + length body)%nat.
Proof. intros terms (G1 & G2 & G3 & G4) body v H i. apply g_complete; assumption. Qed.
Lemma string_sound : forall terms, good_terms terms -> forall d i n, gloop terms d i = Some n -> exists body v, d = body ++ v /\ n = (i + length body)%nat /\ string_body terms body v.
Proof. intros terms (G1 & G2 & G3 & G4) d i n H. apply g_sound; assumption. Qed.

Lemma nF_complete : forall is f v i, Forall intermediate is -> 0x30 <= f <= 0x7E -> nFLoop (is ++ f :: v) i = (i + S (length is))%nat.
Proof.
  induction is as [|b is IH]; intros f v i HF Hf; cbn [app nFLoop length].
  - rng; lia.
  - inversion HF as [|? ? Hb HF']; subst. unfold intermediate in Hb. rng; try lia. rewrite IH by assumption. lia.
Qed.
Lemma nF_sound : forall d i n, nFLoop d i = n -> n <> 0%nat -> exists is f v, d = is ++ f :: v /\ n = (i + S (length is))%nat /\ Forall intermediate is /\ 0x30 <= f <= 0x7E.
Proof.
  induction d as [|b d IH]; intros i n H Hn; cbn [nFLoop] in H; [congruence|]. destruct (inRange 0x20 0x2F b) eqn:E1.
  - destruct (IH _ _ H Hn) as (is & f & v & -> & -> & F1 & F2). exists (b :: is), f, v. rng. split; [reflexivity|]. split; [cbn [length]; lia|]. split; [constructor; auto|exact F2].
  - destruct (inRange 0x30 0x7E b) eqn:E2; [|congruence]. exists [], b, d. rng. split; [reflexivity|]. split; [cbn; lia|]. split; [constructor|exact E2].
Qed.

Lemma str7_spec : forall b, ((b =? 0x50) || (b =? 0x58) || (b =? 0x5E) || (b =? 0x5F)) = true <-> In b STR7.
Proof. intros b. rewrite !orb_true_iff, !N.eqb_eq. cbn. intuition congruence. Qed.
Lemma str8_spec : forall b, ((b =? 0x90) || (b =? 0x98) || (b =? 0x9E) || (b =? 0x9F)) = true <-> In b STR8.
Proof. intros b. rewrite !orb_true_iff, !N.eqb_eq. cbn. intuition congruence. Qed.

Theorem rec7_complete : forall e v, ansi7 e v -> ansiEscapeLength (e ++ v) = length e.
Proof.
  intros e v H. destruct H as [body v H|body v H|k body v HK H|b v HR HN|i is f v HI HF Hf]; cbn [app ansiEscapeLength length].
  - change (negb (ESC =? esc)) with false. change (CSI7 =? 0x5B) with true. cbv iota zeta. rewrite (csi_complete _ _ H). pose proof (csi_pos _ H).
    destruct (Nat.eqb_spec (length body) 0); [contradiction|reflexivity].
  - change (negb (ESC =? esc)) with false. change (OSC7 =? 0x5B) with false. change (OSC7 =? 0x5D) with true. cbv iota. unfold oscLength. rewrite osc7_loop, (string_complete _ osc7_good _ _ H). reflexivity.
  - change (negb (ESC =? esc)) with false. cbv iota. assert (HK1 : k <> 0x5B /\ k <> 0x5D) by (cbn in HK; intuition (subst; discriminate)).
    rewrite (proj2 (N.eqb_neq k 0x5B)), (proj2 (N.eqb_neq k 0x5D)) by apply HK1. rewrite (proj2 (str7_spec k) HK). unfold stSequenceLength. rewrite st7_loop, (string_complete _ st7_good _ _ H). reflexivity.
  - change (negb (ESC =? esc)) with false. cbv iota.
    destruct (N.eqb_spec b 0x5B); [exfalso; apply HN; left; auto|]. destruct (N.eqb_spec b 0x5D); [exfalso; apply HN; right; left; auto|].
    destruct (_ || _) eqn:E. { apply str7_spec in E. exfalso. apply HN. right. right. exact E. } rng; lia.
  - change (negb (ESC =? esc)) with false. cbv iota. unfold intermediate in HI.
    destruct (N.eqb_spec i 0x5B); [lia|]. destruct (N.eqb_spec i 0x5D); [lia|]. destruct (_ || _) eqn:E. { apply str7_spec in E. cbn in E. lia. }
    rng; try lia. rewrite <- app_assoc. cbn [app]. rewrite nF_complete by assumption. rewrite app_length. cbn. lia.
Qed.

Theorem rec7_sound : forall d n, ansiEscapeLength d = n -> n <> 0%nat -> exists e v, d = e ++ v /\ n = length e /\ ansi7 e v.
Proof.
  intros d n H Hn. destruct d as [|b0 [|b1 rest]]; cbn [ansiEscapeLength] in H; try congruence. destruct (N.eqb_spec b0 esc); cbn [negb] in H; [subst b0|congruence].
  destruct (N.eqb_spec b1 0x5B).
  { subst b1. cbv zeta in H. destruct (Nat.eqb_spec (csiBodyLength rest) 0); [congruence|]. destruct (csi_sound0 _ _ eq_refl n0) as (body & v & -> & HL & HB).
    exists (ESC :: CSI7 :: body), v. split; [reflexivity|]. split; [cbn [length]; lia|]. constructor. exact HB. }
  destruct (N.eqb_spec b1 0x5D).
  { subst b1. unfold oscLength in H. rewrite osc7_loop in H. destruct (gloop osc7 rest 0) as [k|] eqn:E; [|congruence]. destruct (string_sound _ osc7_good _ _ _ E) as (body & v & -> & HL & HB).
    exists (ESC :: OSC7 :: body), v. split; [reflexivity|]. split; [cbn [length]; lia|]. constructor. exact HB. }
  destruct (_ || _) eqn:EK.
  { apply str7_spec in EK. unfold stSequenceLength in H. rewrite st7_loop in H. destruct (gloop st7 rest 0) as [k|] eqn:E; [|congruence]. destruct (string_sound _ st7_good _ _ _ E) as (body & v & -> & HL & HB).
    exists (ESC :: b1 :: body), v. split; [reflexivity|]. split; [cbn [length]; lia|]. apply a7_str; assumption. }
  assert (HT : 0x30 <= b1 <= 0x7E -> ansi7 [ESC; b1] rest).
  { intros HR. apply a7_two; [exact HR|]. intros [Hx|[Hx|Hx]]; [unfold CSI7 in Hx; congruence|unfold OSC7 in Hx; congruence|]. apply str7_spec in Hx. congruence. }
  destruct (inRange 0x40 0x7E b1) eqn:E1. { exists [ESC; b1], rest. split; [reflexivity|]. split; [cbn; lia|]. apply HT. rng. lia. }
  destruct (inRange 0x30 0x3F b1) eqn:E2. { exists [ESC; b1], rest. split; [reflexivity|]. split; [cbn; lia|]. apply HT. rng. lia. }
  destruct (inRange 0x20 0x2F b1) eqn:E3; [|congruence]. destruct (nF_sound _ _ _ H Hn) as (is & f & v & -> & HL & HF & Hf).
  exists (ESC :: b1 :: is ++ [f]), v. split; [cbn [app]; rewrite <- app_assoc; reflexivity|]. split; [cbn [length]; rewrite app_length; cbn; lia|]. rng. apply a7_nF; [exact E3|exact HF|exact Hf].
Qed.

Theorem rec8_complete : forall e v, ansi8 e v -> ansiEscapeLength8Bit (e ++ v) = length e.
Proof.
  intros e v H. destruct H as [body v H|body v H|k body v HK H|b v HR HN]; cbn [app ansiEscapeLength8Bit length].
  - change (CSI8 =? 0x9B) with true. cbv iota zeta. rewrite (csi_complete _ _ H). pose proof (csi_pos _ H). destruct (Nat.eqb_spec (length body) 0); [contradiction|reflexivity].
  - change (OSC8 =? 0x9B) with false. change (OSC8 =? 0x9D) with true. cbv iota. unfold oscLengthC1. rewrite osc8_loop, (string_complete _ osc8_good _ _ H). reflexivity.
  - assert (HK1 : k <> 0x9B /\ k <> 0x9D) by (cbn in HK; intuition (subst; discriminate)).
    rewrite (proj2 (N.eqb_neq k 0x9B)), (proj2 (N.eqb_neq k 0x9D)) by apply HK1. rewrite (proj2 (str8_spec k) HK). unfold stSequenceLengthC1. rewrite st8_loop, (string_complete _ st8_good _ _ H). reflexivity.
  - destruct (N.eqb_spec b 0x9B); [exfalso; apply HN; left; auto|]. destruct (N.eqb_spec b 0x9D); [exfalso; apply HN; right; left; auto|].
    destruct (_ || _) eqn:E. { apply str8_spec in E. exfalso. apply HN. right. right. exact E. } rng; lia.
Qed.
Theorem rec8_sound : forall d n, ansiEscapeLength8Bit d = n -> n <> 0%nat -> exists e v, d = e ++ v /\ n = length e /\ ansi8 e v.
Proof.
  intros d n H Hn. destruct d as [|b0 rest]; cbn [ansiEscapeLength8Bit] in H; try congruence.
  destruct (N.eqb_spec b0 0x9B).
  { subst b0. cbv zeta in H. destruct (Nat.eqb_spec (csiBodyLength rest) 0); [congruence|]. destruct (csi_sound0 _ _ eq_refl n0) as (body & v & -> & HL & HB).
    exists (CSI8 :: body), v. split; [reflexivity|]. split; [cbn [length]; lia|]. constructor. exact HB. }
  destruct (N.eqb_spec b0 0x9D).
  { subst b0. unfold oscLengthC1 in H. rewrite osc8_loop in H. destruct (gloop osc8 rest 0) as [k|] eqn:E; [|congruence]. destruct (string_sound _ osc8_good _ _ _ E) as (body & v & -> & HL & HB).
    exists (OSC8 :: body), v. split; [reflexivity|]. split; [cbn [length]; lia|]. constructor. exact HB. }
  destruct (_ || _) eqn:EK.
  { apply str8_spec in EK. unfold stSequenceLengthC1 in H. rewrite st8_loop in H. destruct (gloop st8 rest 0) as [k|] eqn:E; [|congruence]. destruct (string_sound _ st8_good _ _ _ E) as (body & v & -> & HL & HB).
    exists (b0 :: body), v. split; [reflexivity|]. split; [cbn [length]; lia|]. apply a8_str; assumption. }
  destruct (inRange 0x80 0x9F b0) eqn:E1; [|congruence]. exists [b0], rest. split; [reflexivity|]. split; [cbn; lia|]. rng. apply a8_one; [exact E1|].
  intros [Hx|[Hx|Hx]]; [unfold CSI8 in Hx; congruence|unfold OSC8 in Hx; congruence|]. apply str8_spec in Hx. congruence.
Qed.
Lemma ansi7_esc : forall e v, ansi7 e v -> exists r, e = esc :: r.
Proof. intros e v H. destruct H; eexists; reflexivity. Qed.
Lemma ansi8_head : forall e v, ansi8 e v -> exists b r, e = b :: r /\ 0x80 <= b <= 0x9F.
Proof. intros e v H. destruct H as [| |k ? ? HK|]; eexists; eexists; (split; [reflexivity|]); try (unfold CSI8, OSC8; lia); cbn in HK; lia. Qed.
