(** Reading files in the format of SpecDataFile. *)
From Verif Require Import Base GenMain GenFacts GenParse SpecDataFile.
Local Open Scope N_scope.

Definition free (c : N) (s : bytes) : Prop := Forall (fun b => b <> c) s.
(** A byte that TrimSpace keeps. *)
Definition plain (c : N) : Prop := c < 0x80 /\ asciiSpace c = false.
Definition space (c : N) : Prop := c < 0x80 /\ asciiSpace c = true.

(** ** Lines *)
Lemma lines_cons : forall s acc f, free 10 s -> lines_from acc (s ++ 10 :: f) = (rev acc ++ s ++ [10]) :: lines f.
Proof.
  induction s as [|b s IH]; intros acc f F; cbn [lines_from app].
  - rewrite N.eqb_refl. reflexivity.
  - inversion F as [|? ? Hb Fs]; subst. rewrite (proj2 (N.eqb_neq b 10) Hb), (IH _ _ Fs). cbn [rev]. rewrite <- !app_assoc. reflexivity.
Qed.

(** ** strings.Split *)
Lemma split1_free : forall c s, free c s -> split1 c s = [s].
Proof.
  induction s as [|b s IH]; intros F; [reflexivity|]. inversion F as [|? ? Hb Fs]; subst. cbn [split1]. rewrite (proj2 (N.eqb_neq b c) Hb), (IH Fs). reflexivity.
Qed.
Lemma split1_cons : forall c s r, free c s -> split1 c (s ++ c :: r) = s :: split1 c r.
Proof.
  induction s as [|b s IH]; intros r F; cbn [app split1].
  - rewrite N.eqb_refl. reflexivity.
  - inversion F as [|? ? Hb Fs]; subst. rewrite (proj2 (N.eqb_neq b c) Hb), (IH r Fs). reflexivity.
Qed.
Lemma split_dots_free : forall s, free 46 s -> split_dots s = [s].
Proof.
  induction s as [|b s IH]; intros F; [reflexivity|]. inversion F as [|? ? Hb Fs]; subst. cbn [split_dots]. destruct s as [|c s]; [reflexivity|].
  rewrite (proj2 (N.eqb_neq b 46) Hb), (IH Fs). reflexivity.
Qed.
Lemma split_dots_cons : forall s r, free 46 s -> split_dots (s ++ 46 :: 46 :: r) = s :: split_dots r.
Proof.
  induction s as [|b s IH]; intros r F.
  - reflexivity.
  - inversion F as [|? ? Hb Fs]; subst. specialize (IH r Fs). cbn [app]. cbn [split_dots]. destruct (s ++ 46 :: 46 :: r) as [|c l] eqn:E; [destruct s; discriminate E|].
    rewrite (proj2 (N.eqb_neq b 46) Hb). cbn [andb]. rewrite IH. reflexivity.
Qed.

(** ** strings.TrimSpace *)
Lemma trim_start_space : forall w s, Forall space w -> trim_start (w ++ s) = trim_start s.
Proof.
  induction w as [|c w IH]; intros s F; [reflexivity|]. inversion F as [|? ? [Hc Hs] Fw]; subst. cbn [app trim_start]. rewrite (proj2 (N.leb_gt 0x80 c) Hc), Hs. exact (IH s Fw).
Qed.
Lemma trim_start_plain : forall c s, plain c -> trim_start (c :: s) = (c :: s, false).
Proof. intros c s [Hc Hs]. cbn [trim_start]. rewrite (proj2 (N.leb_gt 0x80 c) Hc), Hs. reflexivity. Qed.
Lemma trim_nil_space : forall w, Forall space w -> trim_start w = ([], false).
Proof. intros w F. rewrite <- (app_nil_r w), (trim_start_space w [] F). reflexivity. Qed.

Section Trim.
  Variable tf tr : bytes -> bytes.
  Lemma TrimSpace_ok : forall w n w', Forall space w -> Forall space w' -> n <> [] -> Forall plain n -> TrimSpace tf tr (w ++ n ++ w') = n.
  Proof.
    intros w n w' W W' N P. unfold TrimSpace. rewrite (trim_start_space w _ W). destruct n as [|c n]; [contradiction N; reflexivity|].
    inversion P as [|? ? Pc Pn]; subst. cbn [app]. rewrite (trim_start_plain c _ Pc). change (c :: n ++ w') with ((c :: n) ++ w'). rewrite rev_app_distr, trim_start_space by (apply Forall_rev; exact W').
    assert (R : rev (rev (c :: n)) = c :: n) by apply rev_involutive. assert (Pr : Forall plain (rev (c :: n))) by (apply Forall_rev; exact P).
    destruct (rev (c :: n)) as [|d z]; [discriminate R|]. inversion Pr as [|? ? Pd _]; subst. rewrite (trim_start_plain d z Pd). exact R.
  Qed.

  (** ** Numbers *)
  Lemma digit_hexval : forall c d, digit c d -> hexval c = Some d /\ c <> 95 /\ plain c /\ c <> 46 /\ c <> 59 /\ c <> 10 /\ c <> 35.
  Proof.
    intros c d D. unfold hexval, plain, asciiSpace. destruct D as [[R ->]|[[R ->]|[R ->]]].
    - rewrite (proj2 (N.leb_le 0x30 c)), (proj2 (N.leb_le c 0x39)) by lia. cbn [andb]. repeat split; try lia.
      rewrite (proj2 (N.leb_gt c 13)), andb_false_r by lia. apply N.eqb_neq. lia.
    - rewrite (proj2 (N.leb_gt c 0x39)), andb_false_r by lia. rewrite (proj2 (N.leb_le 0x41 c)), (proj2 (N.leb_le c 0x46)) by lia. cbn [andb]. repeat split; try lia.
      rewrite (proj2 (N.leb_gt c 13)), andb_false_r by lia. apply N.eqb_neq. lia.
    - rewrite (proj2 (N.leb_gt c 0x39)), andb_false_r by lia. rewrite (proj2 (N.leb_gt c 0x46)), andb_false_r by lia. rewrite (proj2 (N.leb_le 0x61 c)), (proj2 (N.leb_le c 0x66)) by lia. cbn [andb]. repeat split; try lia.
      rewrite (proj2 (N.leb_gt c 13)), andb_false_r by lia. apply N.eqb_neq. lia.
  Qed.
  Lemma hexdigits_ok : forall s n, hexadecimal s n -> forall t, hexdigits false (s ++ t) 0 = hexdigits false t n.
  Proof.
    intros s n H. induction H as [c d D|s n c d H IH D]; intros t.
    - cbn [app hexdigits]. destruct (digit_hexval c d D) as (E & N & _). rewrite (proj2 (N.eqb_neq _ _) N), E. reflexivity.
    - rewrite <- app_assoc, IH. cbn [app hexdigits]. destruct (digit_hexval c d D) as (E & N & _). rewrite (proj2 (N.eqb_neq _ _) N), E. f_equal. lia.
  Qed.
  Lemma hex_chars : forall s n, hexadecimal s n -> s <> [] /\ Forall (fun c => plain c /\ c <> 46 /\ c <> 59 /\ c <> 10 /\ c <> 35) s.
  Proof.
    intros s n H. induction H as [c d D|s n c d H IH D]; destruct (digit_hexval c d D) as (_ & _ & P).
    - split; [discriminate|]. constructor; [exact P|constructor].
    - split; [destruct s; discriminate|]. apply Forall_app. split; [exact (proj2 IH)|]. constructor; [exact P|constructor].
  Qed.
  Lemma ParseHex_ok : forall s n, hexadecimal s n -> n <= 0x10FFFF -> ParseHex32 s = Some n.
  Proof.
    intros s n H L. unfold ParseHex32. destruct (hex_chars s n H) as [N _]. destruct s as [|c s]; [contradiction N; reflexivity|].
    pose proof (hexdigits_ok _ _ H []) as E. rewrite app_nil_r in E. rewrite E. cbn [hexdigits]. rewrite (proj2 (N.ltb_lt n 0x80000000)) by lia. reflexivity.
  Qed.

  Lemma in_run_from : forall n lo x, In x (run_from lo n) <-> lo <= x < lo + N.of_nat n.
  Proof. induction n as [|n IH]; intros lo x; cbn [run_from In]; [lia|]. rewrite IH. lia. Qed.

  Lemma span_chars : forall s lo hi, span s lo hi -> s <> [] /\ Forall (fun c => plain c /\ c <> 59 /\ c <> 10 /\ c <> 35) s.
  Proof.
    intros s lo hi H. destruct H as [s lo H|s s' lo hi H H' L].
    - destruct (hex_chars s lo H) as [N F]. split; [exact N|]. eapply Forall_impl; [|exact F]. cbn beta. tauto.
    - destruct (hex_chars s lo H) as [N F]. destruct (hex_chars s' hi H') as [_ F']. split; [destruct s; [contradiction N; reflexivity|discriminate]|].
      apply Forall_app. split; [eapply Forall_impl; [|exact F]; cbn beta; tauto|]. cbn [app].
      assert (D : plain 46 /\ 46 <> 59 /\ 46 <> 10 /\ 46 <> 35) by (repeat split; discriminate || lia).
      constructor; [exact D|]. constructor; [exact D|]. eapply Forall_impl; [|exact F']; cbn beta; tauto.
  Qed.
  Lemma blanks_space : forall w, blanks w -> Forall space w.
  Proof. intros w F. eapply Forall_impl; [|exact F]. cbn beta. intros c [->| ->]; split; [lia|reflexivity|lia|reflexivity]. Qed.

  Lemma getRuneRange_ok : forall s lo hi w, span s lo hi -> hi <= 0x10FFFF -> blanks w ->
    exists rs, getRuneRange tf tr (s ++ w) = Ok (Some rs) /\ forall cp, In cp rs <-> lo <= cp <= hi.
  Proof.
    intros s lo hi w H L W. destruct (span_chars s lo hi H) as [N F]. unfold getRuneRange.
    assert (T : TrimSpace tf tr (s ++ w) = s).
    { change (s ++ w) with ([] ++ s ++ w). apply TrimSpace_ok; [constructor|apply blanks_space; exact W|exact N|]. eapply Forall_impl; [|exact F]. cbn beta. tauto. }
    rewrite T. destruct H as [s lo H|s s' lo hi H H' LH].
    - rewrite split_dots_free by (eapply Forall_impl; [|exact (proj2 (hex_chars s lo H))]; cbn beta; tauto). cbn [nth_error]. rewrite (ParseHex_ok s lo H L).
      exists [lo]. split; [reflexivity|]. intros cp. cbn [In]. lia.
    - cbn [app]. rewrite split_dots_cons by (eapply Forall_impl; [|exact (proj2 (hex_chars s lo H))]; cbn beta; tauto).
      rewrite split_dots_free by (eapply Forall_impl; [|exact (proj2 (hex_chars s' hi H'))]; cbn beta; tauto). cbn [nth_error].
      rewrite (ParseHex_ok s lo H) by lia. rewrite (ParseHex_ok s' hi H' L). destruct (N.eqb_spec hi lo) as [->|Hn].
      + exists [lo]. split; [reflexivity|]. intros cp. cbn [In]. lia.
      + rewrite (proj2 (N.eqb_neq hi 0x7FFFFFFF)), andb_false_r by lia. eexists. split; [reflexivity|]. intros cp. cbn [In]. rewrite in_run_from. lia.
  Qed.

  (** ** Lines to entries *)
  Lemma name_chars : forall n, name n -> Forall (fun c => plain c /\ c <> 59 /\ c <> 10 /\ c <> 35) n.
  Proof.
    intros n [_ F]. eapply Forall_impl; [|exact F]. cbn beta. unfold name_char, plain, asciiSpace. intros c H. assert (R : 0x30 <= c < 0x80 /\ c <> 59) by lia.
    repeat split; try lia. rewrite (proj2 (N.leb_gt c 13)), andb_false_r by lia. apply N.eqb_neq. lia.
  Qed.
  Lemma blanks_chars : forall w, blanks w -> Forall (fun c => c <> 59 /\ c <> 10 /\ c <> 35) w.
  Proof. intros w F. eapply Forall_impl; [|exact F]. cbn beta. lia. Qed.

  (** The end of a line, after the label: spaces for TrimSpace, or cut off by #. *)
  Lemma tail_cut : forall l w' n t, Forall (fun c => c <> 35) l -> l = n ++ w' -> Forall space w' -> remark t ->
    exists v w ps, split1 35 (l ++ t ++ [10]) = v :: ps /\ v = n ++ w /\ Forall space w.
  Proof.
    intros l w' n t F -> W R. destruct R as [|c Fc].
    - cbn [app]. rewrite split1_free; [|apply Forall_app; split; [exact F|constructor; [lia|constructor]]]. exists ((n ++ w') ++ [10]), (w' ++ [10]), [].
      split; [rewrite <- ?app_assoc; reflexivity|]. split; [symmetry; apply app_assoc|]. apply Forall_app. split; [exact W|]. constructor; [split; [lia|reflexivity]|constructor].
    - cbn [app]. rewrite split1_cons by exact F. exists (n ++ w'), w'. eexists. repeat split. exact W.
  Qed.

  Lemma remark_free : forall t, remark t -> free 59 (t ++ [10]) /\ free 10 t.
  Proof.
    intros t [|c F]; [split; [constructor; [lia|constructor]|constructor]|]. split.
    - cbn [app]. constructor; [lia|]. apply Forall_app. split; [eapply Forall_impl; [|exact F]; cbn beta; tauto|]. constructor; [lia|constructor].
    - constructor; [lia|]. eapply Forall_impl; [|exact F]; cbn beta; tauto.
  Qed.

  Lemma parse_line_ok : forall s w l t lo hi n, span s lo hi -> hi <= 0x10FFFF -> blanks w -> label l n -> remark t ->
    exists rs, parse_line tf tr (s ++ w ++ [0x3B] ++ l ++ t ++ [0x0A]) = Ok (Some (n, rs)) /\ forall cp, In cp rs <-> lo <= cp <= hi.
  Proof.
    intros s w l t lo hi n HS LH W HL HR. destruct (getRuneRange_ok s lo hi w HS LH W) as (rs & E & R). exists rs. split; [|exact R].
    unfold parse_line. destruct (span_chars s lo hi HS) as [_ Fs]. destruct (remark_free t HR) as [Ft _].
    assert (F0 : free 59 (s ++ w)).
    { apply Forall_app. split; [eapply Forall_impl; [|exact Fs]; cbn beta; tauto|]. eapply Forall_impl; [|exact (blanks_chars w W)]; cbn beta; tauto. }
    replace (s ++ w ++ [59] ++ l ++ t ++ [10]) with ((s ++ w) ++ 59 :: (l ++ t ++ [10])) by (rewrite <- app_assoc; reflexivity).
    rewrite split1_cons by exact F0. cbn [nth_error]. rewrite E. cbn [bind].
    destruct HL as [w1 w2 n W1 W2 Hn|w1 w2 w3 w4 n n' W1 W2 W3 W4 Hn Hn'].
    - pose proof (name_chars n Hn) as Cn. rewrite split1_free.
      + cbn [nth_error]. destruct (tail_cut (w1 ++ n ++ w2) w2 (w1 ++ n) t) as (v & w' & ps & Ev & -> & Sw).
        * repeat (apply Forall_app; split); [eapply Forall_impl; [|exact (blanks_chars w1 W1)]|eapply Forall_impl; [|exact Cn]|eapply Forall_impl; [|exact (blanks_chars w2 W2)]]; cbn beta; tauto.
        * apply app_assoc.
        * apply blanks_space. exact W2.
        * exact HR.
        * rewrite Ev. rewrite <- app_assoc. rewrite TrimSpace_ok; [reflexivity|apply blanks_space; exact W1|exact Sw|exact (proj1 Hn)|eapply Forall_impl; [|exact Cn]; cbn beta; tauto].
      + apply Forall_app. split; [|exact Ft]. repeat (apply Forall_app; split); [eapply Forall_impl; [|exact (blanks_chars w1 W1)]|eapply Forall_impl; [|exact Cn]|eapply Forall_impl; [|exact (blanks_chars w2 W2)]]; cbn beta; tauto.
    - pose proof (name_chars n Hn) as Cn. pose proof (name_chars n' Hn') as Cn'.
      replace ((w1 ++ n ++ w2 ++ [59] ++ w3 ++ n' ++ w4) ++ t ++ [10]) with ((w1 ++ n ++ w2) ++ 59 :: ((w3 ++ n' ++ w4) ++ t ++ [10])) by (rewrite <- !app_assoc; reflexivity).
      rewrite split1_cons.
      + cbn [nth_error]. rewrite split1_free.
        * cbn [nth_error]. destruct (tail_cut (w3 ++ n' ++ w4) w4 (w3 ++ n') t) as (v & w' & ps & Ev & -> & Sw).
          -- repeat (apply Forall_app; split); [eapply Forall_impl; [|exact (blanks_chars w3 W3)]|eapply Forall_impl; [|exact Cn']|eapply Forall_impl; [|exact (blanks_chars w4 W4)]]; cbn beta; tauto.
          -- apply app_assoc.
          -- apply blanks_space. exact W4.
          -- exact HR.
          -- rewrite Ev. rewrite <- app_assoc. rewrite (TrimSpace_ok w3 n' w'); [|apply blanks_space; exact W3|exact Sw|exact (proj1 Hn')|eapply Forall_impl; [|exact Cn']; cbn beta; tauto].
             rewrite (TrimSpace_ok w1 n w2); [reflexivity|apply blanks_space; exact W1|apply blanks_space; exact W2|exact (proj1 Hn)|eapply Forall_impl; [|exact Cn]; cbn beta; tauto].
        * apply Forall_app. split; [|exact Ft]. repeat (apply Forall_app; split); [eapply Forall_impl; [|exact (blanks_chars w3 W3)]|eapply Forall_impl; [|exact Cn']|eapply Forall_impl; [|exact (blanks_chars w4 W4)]]; cbn beta; tauto.
      + repeat (apply Forall_app; split); [eapply Forall_impl; [|exact (blanks_chars w1 W1)]|eapply Forall_impl; [|exact Cn]|eapply Forall_impl; [|exact (blanks_chars w2 W2)]]; cbn beta; tauto.
  Qed.

  Lemma label_free : forall l n, label l n -> free 10 l.
  Proof.
    intros l n [w1 w2 n' W1 W2 Hn|w1 w2 w3 w4 n1 n2 W1 W2 W3 W4 Hn Hn'].
    - repeat (apply Forall_app; split); [eapply Forall_impl; [|exact (blanks_chars w1 W1)]|eapply Forall_impl; [|exact (name_chars n' Hn)]|eapply Forall_impl; [|exact (blanks_chars w2 W2)]]; cbn beta; tauto.
    - repeat (apply Forall_app; split); [eapply Forall_impl; [|exact (blanks_chars w1 W1)]|eapply Forall_impl; [|exact (name_chars n1 Hn)]|eapply Forall_impl; [|exact (blanks_chars w2 W2)]|constructor; [lia|constructor]|eapply Forall_impl; [|exact (blanks_chars w3 W3)]|eapply Forall_impl; [|exact (name_chars n2 Hn')]|eapply Forall_impl; [|exact (blanks_chars w4 W4)]]; cbn beta; tauto.
  Qed.
  Lemma line_body : forall s es, line_says s es -> exists b, s = b ++ [10] /\ free 10 b.
  Proof.
    intros s es [|c F|s' w l t lo hi n HS LH W HL HR].
    - exists []. split; [reflexivity|constructor].
    - exists (35 :: c). split; [reflexivity|]. constructor; [lia|exact F].
    - exists (s' ++ w ++ [59] ++ l ++ t). split; [rewrite <- !app_assoc; reflexivity|]. destruct (span_chars _ _ _ HS) as [_ Fs].
      apply Forall_app. split; [eapply Forall_impl; [|exact Fs]; cbn beta; tauto|]. apply Forall_app. split; [eapply Forall_impl; [|exact (blanks_chars w W)]; cbn beta; tauto|].
      cbn [app]. constructor; [lia|]. apply Forall_app. split; [exact (label_free l n HL)|exact (proj2 (remark_free t HR))].
  Qed.

  (** ** The map *)
  Definition says (m : list (bytes * list N)) (es : list entry) : Prop :=
    NoDup (map fst m) /\ (forall p, In p (map fst m) <-> named es p) /\ (forall p rs, In (p, rs) m -> forall cp, In cp rs <-> listed es p cp).

  Lemma append_at_keys : forall m k rs p, In p (map fst (append_at k rs m)) <-> p = k \/ In p (map fst m).
  Proof.
    induction m as [|[k' rs'] m IH]; intros k rs p; cbn [append_at map fst In]; [intuition congruence|].
    destruct (bytes_eqb k' k) eqn:E; cbn [map fst In].
    - apply bytes_eqb_spec in E. subst k'. intuition congruence.
    - rewrite IH. tauto.
  Qed.
  Lemma append_at_nodup : forall m k rs, NoDup (map fst m) -> NoDup (map fst (append_at k rs m)).
  Proof.
    induction m as [|[k' rs'] m IH]; intros k rs N; cbn [append_at map fst] in *; [constructor; [intros []|constructor]|].
    inversion N as [|? ? Nk Nm]; subst. destruct (bytes_eqb k' k) eqn:E; cbn [map fst]; [constructor; assumption|]. constructor; [|exact (IH k rs Nm)].
    rewrite append_at_keys. intros [->|I]; [|exact (Nk I)]. rewrite (proj2 (bytes_eqb_spec k k) eq_refl) in E. discriminate.
  Qed.
  Lemma append_at_in : forall m k rs p rs', NoDup (map fst m) -> In (p, rs') (append_at k rs m) ->
    (p <> k /\ In (p, rs') m) \/ (p = k /\ ~ In k (map fst m) /\ rs' = rs) \/ (p = k /\ exists rs0, In (k, rs0) m /\ rs' = rs0 ++ rs).
  Proof.
    induction m as [|[k1 rs1] m IH]; intros k rs p rs' N I; cbn [append_at map fst In] in *.
    - destruct I as [I|[]]. injection I as -> ->. right. left. repeat split. intros [].
    - inversion N as [|? ? Nk Nm]; subst. destruct (bytes_eqb k1 k) eqn:E; cbn [In] in I.
      + apply bytes_eqb_spec in E. subst k1. destruct I as [I|I].
        * injection I as -> <-. right. right. split; [reflexivity|]. exists rs1. split; [left; reflexivity|reflexivity].
        * left. split; [|right; exact I]. intros ->. apply Nk. apply in_map_iff. exists (k, rs'). split; [reflexivity|exact I].
      + assert (Hk : k1 <> k) by (intros ->; rewrite (proj2 (bytes_eqb_spec k k) eq_refl) in E; discriminate).
        destruct I as [I|I].
        * injection I as -> ->. left. split; [exact Hk|left; reflexivity].
        * destruct (IH k rs p rs' Nm I) as [[H1 H2]|[(H1 & H2 & H3)|(H1 & rs0 & H2 & H3)]].
          -- left. split; [exact H1|right; exact H2].
          -- right. left. split; [exact H1|]. split; [|exact H3]. intros [H|H]; [contradiction|exact (H2 H)].
          -- right. right. split; [exact H1|]. exists rs0. split; [right; exact H2|exact H3].
  Qed.

  Lemma says_append : forall m es lo hi n rs, says m es -> (forall cp, In cp rs <-> lo <= cp <= hi) -> says (append_at n rs m) (es ++ [(lo, hi, n)]).
  Proof.
    intros m es lo hi n rs (N & K & V) R. split; [apply append_at_nodup; exact N|]. split.
    - intros p. rewrite append_at_keys, K. unfold named. split.
      + intros [->|(a & b & I)]; [exists lo, hi|exists a, b]; apply in_app_iff; [right; left; reflexivity|left; exact I].
      + intros (a & b & I). apply in_app_iff in I as [I|[I|[]]]; [right; exists a, b; exact I|left]. injection I as <- <- <-. reflexivity.
    - intros p rs' I cp. apply append_at_in in I; [|exact N]. unfold listed. destruct I as [[Hn I]|[(-> & Hn & ->)|(-> & rs0 & I & ->)]].
      + rewrite (V p rs' I cp). split; intros (a & b & J & L); exists a, b; split; try exact L.
        * apply in_app_iff. left. exact J.
        * apply in_app_iff in J as [J|[J|[]]]; [exact J|]. injection J as <- <- <-. contradiction Hn. reflexivity.
      + rewrite R. split.
        * intros L. exists lo, hi. split; [apply in_app_iff; right; left; reflexivity|exact L].
        * intros (a & b & J & L). apply in_app_iff in J as [J|[J|[]]]; [|injection J as <- <-; exact L]. contradiction Hn. apply K. exists a, b. exact J.
      + rewrite in_app_iff, R, (V n rs0 I cp). split.
        * intros [(a & b & J & L)|L]; [exists a, b|exists lo, hi]; (split; [apply in_app_iff|exact L]); [left; exact J|right; left; reflexivity].
        * intros (a & b & J & L). apply in_app_iff in J as [J|[J|[]]]; [left; exists a, b; split; assumption|right]. injection J as <- <-. exact L.
  Qed.

  Lemma parse_lines_ok : forall f es, file_says f es -> forall m es0, says m es0 -> exists m', parse_lines tf tr (lines f) m = Ok (Some m') /\ says m' (es0 ++ es).
  Proof.
    intros f es H. induction H as [|s f es es' HL HF IH]; intros m es0 S.
    - exists m. split; [reflexivity|]. rewrite app_nil_r. exact S.
    - destruct (line_body s es HL) as (b & -> & F). rewrite <- app_assoc. cbn [app]. unfold lines. rewrite (lines_cons b [] f F). cbn [rev app parse_lines].
      remember (b ++ [10]) as s eqn:Es. destruct HL as [|c Fc|s' w l t lo hi n HS LH W HLb HR].
      + cbn [N.eqb]. exact (IH m es0 S).
      + exact (IH m es0 S).
      + destruct (parse_line_ok s' w l t lo hi n HS LH W HLb HR) as (rs & E & R). destruct (span_chars _ _ _ HS) as [Ns Fs]. destruct s' as [|c s']; [contradiction Ns; reflexivity|].
        inversion Fs as [|? ? (_ & _ & H10 & H35) _]; subst. cbn [app]. rewrite (proj2 (N.eqb_neq c 10) H10), (proj2 (N.eqb_neq c 35) H35). cbn [orb].
        cbn [app] in E. rewrite E. cbn [bind]. destruct (IH _ _ (says_append m es0 lo hi n rs S R)) as (m' & Em & Sm). exists m'. split; [exact Em|].
        rewrite <- app_assoc in Sm. exact Sm.
  Qed.

  Lemma parse_ok : forall f es, file_says f es -> exists m, parse tf tr f = Ok (Some m) /\ says m es.
  Proof.
    intros f es H. destruct (parse_lines_ok f es H [] []) as (m & E & S).
    - split; [constructor|]. split; [|intros p rs []]. intros p. split; [intros []|]. intros (a & b & []).
    - exists m. split; [exact E|exact S].
  Qed.
End Trim.
