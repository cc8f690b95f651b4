(** The word rules (and the phrase tailoring) read as a decision on a summary of the text before a position:
    the last character, the last two characters that are not ignored, the parity of the run of regional indicators. *)
From Verif Require Import Base ListFacts SpecUcd SpecRules SpecWords RuleFacts.

(** ** Patterns that match one character of a class *)
Fixpoint is_single (r : re) : bool :=
  match r with Cls _ => true | Alt r s => is_single r && is_single s | _ => false end.
Fixpoint spred (r : re) (c : N) : bool :=
  match r with Cls p => p c | Alt r s => spred r c || spred s c | _ => false end.
Lemma single_spred : forall r, is_single r = true -> single r (spred r).
Proof.
  induction r; intros H; try discriminate.
  - apply single_cls.
  - cbn [is_single] in H. apply andb_prop in H. destruct H as [H1 H2]. exact (single_alt r1 r2 _ _ (IHr1 H1) (IHr2 H2)).
Qed.

Definition on (p : N -> bool) (o : option N) : bool := match o with Some x => p x | None => false end.

Lemma last_char_snoc : forall t x, last_char (t ++ [x]) = Some x.
Proof. induction t as [|y t IH]; intros x; [reflexivity|]. cbn [app last_char]. rewrite IH. destruct (t ++ [x]) eqn:E; [destruct t; discriminate|reflexivity]. Qed.

(** ** Reduced texts *)
Section Reduce.
  Variables ign keep : N -> bool.
  Definition drops (prev : option N) (c : N) : bool := ign c && match prev with Some p => negb (keep p) | None => false end.
  Definition prev_of (prev : option N) (t : text) : option N := match last_char t with Some x => Some x | None => prev end.
  Lemma prev_of_cons : forall prev c t, prev_of prev (c :: t) = prev_of (Some c) t.
  Proof.
    intros. unfold prev_of. destruct t as [|x t _] using rev_ind; [reflexivity|].
    rewrite app_comm_cons, !last_char_snoc. reflexivity.
  Qed.
  Lemma reduce_app : forall t u prev, reduce ign keep prev (t ++ u) = reduce ign keep prev t ++ reduce ign keep (prev_of prev t) u.
  Proof.
    induction t as [|c t IH]; intros u prev; [reflexivity|]. rewrite prev_of_cons. cbn [app reduce]. rewrite !IH.
    destruct (ign c && _); reflexivity.
  Qed.
  Lemma reduce_snoc : forall t x, reduce ign keep None (t ++ [x]) = reduce ign keep None t ++ (if drops (last_char t) x then [] else [x]).
  Proof.
    intros t x. rewrite reduce_app. f_equal. unfold prev_of. cbn [reduce]. unfold drops. destruct (last_char t); reflexivity.
  Qed.
  Lemma reduce_nonnil : forall t, t <> [] -> reduce ign keep None t <> [].
  Proof. intros [|c t] H; [congruence|]. cbn [reduce]. rewrite andb_false_r. discriminate. Qed.
End Reduce.

(** ** The summary *)
Record wtr := { w_l : option N; w_lx : option N; w_ll : option N; w_run : nat }.
Definition wtr0 : wtr := {| w_l := None; w_lx := None; w_ll := None; w_run := 0 |}.
Definition wri := wc WB_Regional_Indicator.
Definition wstep (t : wtr) (c : N) : wtr :=
  if drops ignored line_end (w_l t) c then {| w_l := Some c; w_lx := w_lx t; w_ll := w_ll t; w_run := w_run t |}
  else {| w_l := Some c; w_lx := Some c; w_ll := w_lx t; w_run := if wri c then S (w_run t) else 0 |}.
Definition wtrack (b : text) : wtr := fold_left wstep b wtr0.
Lemma wtrack_snoc : forall b x, wtrack (b ++ [x]) = wstep (wtrack b) x.
Proof. intros. unfold wtrack. rewrite fold_left_app. reflexivity. Qed.

Definition red (b : text) : text := reduce ignored line_end None b.

(** [last2 r lx ll]: the last and second last of [r]. *)
Definition last2 (r : text) (lx ll : option N) : Prop :=
  (r = [] /\ lx = None /\ ll = None) \/ (exists x, r = [x] /\ lx = Some x /\ ll = None)
  \/ (exists r0 y x, r = r0 ++ [y; x] /\ lx = Some x /\ ll = Some y).
Lemma last2_snoc : forall r lx ll x, last2 r lx ll -> last2 (r ++ [x]) (Some x) lx.
Proof.
  intros r lx ll x [(-> & -> & ->)|[(z & -> & -> & ->)|(r0 & y & z & -> & -> & ->)]].
  - right; left. exists x. auto.
  - right; right. exists [], z, x. auto.
  - right; right. exists (r0 ++ [y]), z, x. rewrite <- !app_assoc. auto.
Qed.

Lemma wtrack_facts : forall b, w_l (wtrack b) = last_char b /\ last2 (red b) (w_lx (wtrack b)) (w_ll (wtrack b))
  /\ w_run (wtrack b) = trun wri (red b).
Proof.
  induction b as [|x b IH] using rev_ind.
  - cbn. repeat split. left. auto.
  - destruct IH as (H1 & H2 & H3). rewrite wtrack_snoc, last_char_snoc. unfold red in *. rewrite reduce_snoc.
    unfold wstep. rewrite <- H1. destruct (drops ignored line_end (w_l (wtrack b)) x) eqn:E; cbn [w_l w_lx w_ll w_run].
    + rewrite app_nil_r. auto.
    + split; [reflexivity|]. split; [eapply last2_snoc; eauto|]. rewrite trun_snoc, H3. reflexivity.
Qed.

Lemma ends_last : forall r, is_single r = true -> forall t lx ll, last2 t lx ll -> ends_with r t <-> on (spred r) lx = true.
Proof.
  intros r Hr t lx ll H. pose proof (single_spred r Hr) as HS.
  destruct H as [(-> & -> & ->)|[(z & -> & -> & ->)|(r0 & y & z & -> & -> & ->)]]; cbn [on].
  - split; [intros H; destruct (ends_single_nil _ _ HS H)|discriminate].
  - apply (ends_single _ _ HS []).
  - change [y; z] with ([y] ++ [z]). rewrite app_assoc. apply (ends_single _ _ HS).
Qed.
Lemma ends_last2 : forall r s, is_single r = true -> is_single s = true -> forall t lx ll, last2 t lx ll ->
  ends_with (Cat r s) t <-> on (spred s) lx && on (spred r) ll = true.
Proof.
  intros r s Hr Hs t lx ll H. pose proof (single_spred r Hr) as HR. pose proof (single_spred s Hs) as HS.
  destruct H as [(-> & -> & ->)|[(z & -> & -> & ->)|(r0 & y & z & -> & -> & ->)]]; cbn [on].
  - split; [intros H; destruct (ends_cat_single_nil _ _ HS _ H)|discriminate].
  - rewrite (ends_cat_single _ _ HS r [] z). rewrite andb_false_r. split; [intros [_ H]; destruct (ends_single_nil _ _ HR H)|discriminate].
  - change [y; z] with ([y] ++ [z]). rewrite app_assoc, (ends_cat_single _ _ HS), (ends_single _ _ HR), andb_true_iff. reflexivity.
Qed.
Lemma starts_first : forall r, is_single r = true -> forall y a, starts_with r (y :: a) <-> spred r y = true.
Proof. intros r Hr y a. apply starts_single. apply single_spred. exact Hr. Qed.
Lemma starts_first2 : forall r s, is_single r = true -> is_single s = true -> forall y a,
  starts_with (Cat r s) (y :: a) <-> spred r y && on (spred s) (hd_error a) = true.
Proof.
  intros r s Hr Hs y a. pose proof (single_spred r Hr) as HR. pose proof (single_spred s Hs) as HS.
  rewrite (starts_cat_single _ _ HR), andb_true_iff. destruct a as [|z a]; cbn [hd_error on].
  - split; [intros [_ H]; destruct (starts_single_nil _ _ HS H)|intros [_ H]; discriminate].
  - rewrite (starts_single _ _ HS). reflexivity.
Qed.

(** ** The decision *)
Section Dec.
  Variable al : N -> bool.
  Variable phs : list re.
  Hypothesis PHS : forallb is_single phs = true.
  Let AH := spred (AHLetter al).
  Let ML := spred (Alt MidLetter MidNumLetQ).
  Let MN := spred (Alt MidNum MidNumLetQ).

  Definition word_dec1 (l : option N) (y : N) : option op :=
    if on (spred CR) l && spred LF y then Some Join
    else if on (spred (Alt Newline (Alt CR LF))) l then Some Break
    else if spred (Alt Newline (Alt CR LF)) y then Some Break
    else if on (spred ZWJ) l && spred ExtPict_ y then Some Join
    else if on (spred WSegSpace) l && spred WSegSpace y then Some Join
    else if ignored y then Some Join
    else None.
  Definition word_dec2 (lx ll : option N) (run : nat) (y : N) (n : option N) : op :=
    if on AH lx && AH y then Join
    else if on AH lx && (ML y && on AH n) then Join
    else if on ML lx && on AH ll && AH y then Join
    else if on (spred HebrewLetter) lx && spred SingleQuote y then Join
    else if on (spred HebrewLetter) lx && (spred DoubleQuote y && on (spred HebrewLetter) n) then Join
    else if on (spred DoubleQuote) lx && on (spred HebrewLetter) ll && spred HebrewLetter y then Join
    else if on (spred Numeric) lx && spred Numeric y then Join
    else if on AH lx && spred Numeric y then Join
    else if on (spred Numeric) lx && AH y then Join
    else if on MN lx && on (spred Numeric) ll && spred Numeric y then Join
    else if on (spred Numeric) lx && (MN y && on (spred Numeric) n) then Join
    else if on (spred Katakana) lx && spred Katakana y then Join
    else if on (spred (Alt (AHLetter al) (Alt Numeric (Alt Katakana ExtendNumLet)))) lx && spred ExtendNumLet y then Join
    else if on (spred ExtendNumLet) lx && spred (Alt (AHLetter al) (Alt Numeric Katakana)) y then Join
    else if Nat.odd run && spred RI y then Join
    else if existsb (fun r => on (spred r) lx && spred r y) phs then Join
    else Break.
  Definition word_dec (t : wtr) (y : N) (n : option N) : op :=
    match word_dec1 (w_l t) y with Some o => o | None => word_dec2 (w_lx t) (w_ll t) (w_run t) y n end.

  Definition after_red (y : N) (a : text) : option N := hd_error (reduce ignored line_end (Some y) a).

  Lemma app1 : forall l r, is_single l = true -> is_single r = true -> forall o t lx ll y a, last2 t lx ll ->
    applies (Rule (Suffix l) o r) t (y :: a) <-> on (spred l) lx && spred r y = true.
  Proof.
    intros l r Hl Hr o t lx ll y a H. unfold applies. cbn [r_left r_right left_applies].
    rewrite (ends_last l Hl t lx ll H), (starts_first r Hr), andb_true_iff. reflexivity.
  Qed.
  Lemma app2 : forall l l2 r, is_single l = true -> is_single l2 = true -> is_single r = true -> forall o t lx ll y a, last2 t lx ll ->
    applies (Rule (Suffix (Cat l l2)) o r) t (y :: a) <-> on (spred l2) lx && on (spred l) ll && spred r y = true.
  Proof.
    intros l l2 r Hl Hl2 Hr o t lx ll y a H. unfold applies. cbn [r_left r_right left_applies].
    rewrite (ends_last2 l l2 Hl Hl2 t lx ll H), (starts_first r Hr), (andb_true_iff (_ && _)). reflexivity.
  Qed.
  Lemma app3 : forall l r r2, is_single l = true -> is_single r = true -> is_single r2 = true -> forall o t lx ll y a, last2 t lx ll ->
    applies (Rule (Suffix l) o (Cat r r2)) t (y :: a) <-> on (spred l) lx && (spred r y && on (spred r2) (hd_error a)) = true.
  Proof.
    intros l r r2 Hl Hr Hr2 o t lx ll y a H. unfold applies. cbn [r_left r_right left_applies].
    rewrite (ends_last l Hl t lx ll H), (starts_first2 r r2 Hr Hr2), (andb_true_iff (on _ _)). reflexivity.
  Qed.
  Lemma appl : forall l, is_single l = true -> forall o t lx ll a, last2 t lx ll ->
    applies (Rule (Suffix l) o Any) t a <-> on (spred l) lx = true.
  Proof.
    intros l Hl o t lx ll a H. unfold applies. cbn [r_left r_right left_applies].
    rewrite (ends_last l Hl t lx ll H). pose proof (starts_any a). tauto.
  Qed.
  Lemma appr : forall r, is_single r = true -> forall o t y a, applies (Rule (Suffix Any) o r) t (y :: a) <-> spred r y = true.
  Proof.
    intros r Hr o t y a. unfold applies. cbn [r_left r_right left_applies]. rewrite (starts_first r Hr). pose proof (ends_any t). tauto.
  Qed.

  Lemma raw_last2 : forall b x, exists ll, last2 (b ++ [x]) (Some x) ll.
  Proof.
    intros b x. destruct b as [|y b _] using rev_ind.
    - exists None. right; left. exists x. auto.
    - exists (Some y). right; right. exists b, y, x. rewrite <- app_assoc. auto.
  Qed.

  Lemma says_raw : forall b x y a, says (b ++ [x]) (y :: a) word_rules_1 (word_dec1 (Some x) y).
  Proof.
    intros b x y a. destruct (raw_last2 b x) as (ll & HL).
    refine (says_cascade _ _ _ [(_, Join); (_, Break); (_, Break); (_, Join); (_, Join); (_, Join)] _).
    unfold word_rules_1.
    repeat (apply Forall2_cons; [split; [cbn [fst]|reflexivity]|]); [..|apply Forall2_nil].
    - eapply app1; eauto.
    - eapply appl; eauto.
    - eapply appr; eauto.
    - eapply app1; eauto.
    - eapply app1; eauto.
    - rewrite appr by reflexivity. reflexivity.
  Qed.

  Lemma says_red : forall t lx ll y a, last2 t lx ll ->
    says t (y :: a) (word_rules_2 al (map (fun r => Rule (Suffix r) Join r) phs)) (Some (word_dec2 lx ll (trun wri t) y (hd_error a))).
  Proof.
    intros t lx ll y a HL.
    set (cs := [ (on AH lx && AH y, Join); (on AH lx && (ML y && on AH (hd_error a)), Join); (on ML lx && on AH ll && AH y, Join);
      (on (spred HebrewLetter) lx && spred SingleQuote y, Join);
      (on (spred HebrewLetter) lx && (spred DoubleQuote y && on (spred HebrewLetter) (hd_error a)), Join);
      (on (spred DoubleQuote) lx && on (spred HebrewLetter) ll && spred HebrewLetter y, Join);
      (on (spred Numeric) lx && spred Numeric y, Join); (on AH lx && spred Numeric y, Join); (on (spred Numeric) lx && AH y, Join);
      (on MN lx && on (spred Numeric) ll && spred Numeric y, Join); (on (spred Numeric) lx && (MN y && on (spred Numeric) (hd_error a)), Join);
      (on (spred Katakana) lx && spred Katakana y, Join);
      (on (spred (Alt (AHLetter al) (Alt Numeric (Alt Katakana ExtendNumLet)))) lx && spred ExtendNumLet y, Join);
      (on (spred ExtendNumLet) lx && spred (Alt (AHLetter al) (Alt Numeric Katakana)) y, Join);
      (spred RI y && (forallb wri t && Nat.odd (length t)), Join); (spred RI y && (Nat.odd (trun wri t) && negb (forallb wri t)), Join) ]
      ++ map (fun r => (on (spred r) lx && spred r y, Join)) phs ++ [(true, Break)]).
    replace (Some (word_dec2 lx ll (trun wri t) y (hd_error a))) with (cascade cs).
    - apply says_cascade. unfold word_rules_2, cs. apply Forall2_app; [|apply Forall2_app].
      + repeat (apply Forall2_cons; [split; [cbn [fst]|reflexivity]|]); [..|apply Forall2_nil];
        try (eapply app1; eauto; fail); try (eapply app2; eauto; fail); try (eapply app3; eauto; fail).
        * unfold applies. cbn [r_left r_right left_applies]. rewrite (sot_pairs RI wri), (starts_first RI), (andb_true_iff (spred _ _)) by (apply single_cls || reflexivity).
          tauto.
        * unfold applies. cbn [r_left r_right left_applies].
          rewrite (suffix_pairs RI wri), (starts_first RI), (andb_true_iff (spred _ _)) by (apply single_cls || reflexivity).
          tauto.
      + revert PHS. clear cs. induction phs as [|r rs IH]; intros HP; [constructor|]. cbn [forallb] in HP. apply andb_prop in HP. destruct HP as [Hr HP].
        constructor; [|apply IH; exact HP]. split; [|reflexivity]. eapply app1; eauto.
      + constructor; [|constructor]. split; [|reflexivity]. unfold applies. cbn [r_left r_right left_applies fst].
        pose proof (ends_any t). pose proof (starts_any (y :: a)). tauto.
    - unfold cs, word_dec2. cbn [cascade app]. clear cs. pose proof (pairs_either wri t) as HE. revert HE.
      generalize (forallb wri t && Nat.odd (length t)) (Nat.odd (trun wri t) && negb (forallb wri t)).
      generalize (Nat.odd (trun wri t)). intros o o12 o13 <-.
      assert (HC : cascade (map (fun r => (on (spred r) lx && spred r y, Join)) phs ++ [(true, Break)])
                   = Some (if existsb (fun r => on (spred r) lx && spred r y) phs then Join else Break)).
      { clear. induction phs as [|r rs IH]; [reflexivity|]. cbn [map app cascade existsb]. destruct (on _ _ && _); [reflexivity|exact IH]. }
      rewrite HC. clear HC.
      repeat match goal with
      | |- (if ?c then _ else _) = Some (if ?c then _ else _) => destruct c; [reflexivity|]
      end.
      destruct (spred RI y), o12, o13; reflexivity.
  Qed.

  Lemma dec1_drops : forall x y, word_dec1 (Some x) y = None -> drops ignored line_end (Some x) y = false.
  Proof.
    intros x y H. unfold drops. unfold word_dec1 in H.
    repeat match type of H with (if ?c then _ else _) = _ => destruct c eqn:?; try discriminate end. reflexivity.
  Qed.

  Lemma word_spec : forall b x y a,
    word_like al (map (fun r => Rule (Suffix r) Join r) phs) (b ++ [x]) (y :: a) (word_dec (wtrack (b ++ [x])) y (after_red y a)).
  Proof.
    intros b x y a. destruct (wtrack_facts (b ++ [x])) as (H1 & H2 & H3). rewrite last_char_snoc in H1.
    unfold word_dec, word_like. rewrite H1, last_char_snoc. pose proof (says_raw b x y a) as HR.
    destruct (word_dec1 (Some x) y) as [o|] eqn:E; [left; exact HR|]. right. split; [exact HR|].
    cbn [reduce]. pose proof (dec1_drops x y E) as HD. unfold drops in HD. rewrite HD.
    rewrite H3. apply says_red. exact H2.
  Qed.
End Dec.

Lemma word_like_fun : forall al mr b a o1 o2, word_like al mr b a o1 -> word_like al mr b a o2 -> o1 = o2.
Proof.
  intros al mr b a o1 o2 [H|[H H']] [K|[K K']]; pose proof (says_fun _ _ _ _ _ H K) as E; try discriminate; try (injection E; auto).
  pose proof (says_fun _ _ _ _ _ H' K') as E2. injection E2. auto.
Qed.
