(** From the data files to the properties. *)
From Verif Require Import Base SpecUtf8 SpecUcd SpecData SpecDataFile SpecFiles SpecGenerate GenMain GenFacts GenParse GenParseFacts DataFacts.
From Coq Require Import Permutation String.
Local Open Scope N_scope.

Definition puts (l m : list (bytes * list N)) : list (bytes * list N) := fold_right (fun e m => put_at (fst e) (snd e) m) m l.

Lemma bytes_eqb_refl : forall k, bytes_eqb k k = true. Proof. intros k. apply bytes_eqb_spec. reflexivity. Qed.
Lemma bytes_eqb_neq : forall a b, bytes_eqb a b = false -> a <> b. Proof. intros a b E ->. rewrite bytes_eqb_refl in E. discriminate. Qed.

Lemma put_at_keys : forall m k rs p, In p (map fst (put_at k rs m)) <-> p = k \/ In p (map fst m).
Proof.
  induction m as [|[k' rs'] m IH]; intros k rs p; cbn [put_at map fst In]; [intuition congruence|].
  destruct (bytes_eqb k' k) eqn:E; cbn [map fst In]; [apply bytes_eqb_spec in E; subst k'; intuition congruence|]. rewrite IH. tauto.
Qed.
Lemma put_at_nodup : forall m k rs, NoDup (map fst m) -> NoDup (map fst (put_at k rs m)).
Proof.
  induction m as [|[k' rs'] m IH]; intros k rs N; cbn [put_at map fst] in *; [constructor; [intros []|constructor]|].
  inversion N as [|? ? Nk Nm]; subst. destruct (bytes_eqb k' k) eqn:E; cbn [map fst].
  - apply bytes_eqb_spec in E. subst k'. constructor; assumption.
  - constructor; [|exact (IH k rs Nm)]. rewrite put_at_keys. intros [->|I]; [|exact (Nk I)]. rewrite bytes_eqb_refl in E. discriminate.
Qed.
Lemma put_at_in : forall m k rs p rs', NoDup (map fst m) -> In (p, rs') (put_at k rs m) -> (p = k /\ rs' = rs) \/ (p <> k /\ In (p, rs') m).
Proof.
  induction m as [|[k1 rs1] m IH]; intros k rs p rs' N I; cbn [put_at map fst In] in *.
  - destruct I as [I|[]]. injection I as -> ->. left. split; reflexivity.
  - inversion N as [|? ? Nk Nm]; subst. destruct (bytes_eqb k1 k) eqn:E; cbn [In] in I.
    + apply bytes_eqb_spec in E. subst k1. destruct I as [I|I]; [injection I as -> ->; left; split; reflexivity|].
      right. split; [|right; exact I]. intros ->. apply Nk. apply in_map_iff. exists (k, rs'). split; [reflexivity|exact I].
    + destruct I as [I|I].
      * injection I as -> ->. right. split; [exact (bytes_eqb_neq _ _ E)|left; reflexivity].
      * destruct (IH k rs p rs' Nm I) as [H|[H1 H2]]; [left; exact H|right; split; [exact H1|right; exact H2]].
Qed.

Lemma puts_keys : forall l m p, In p (map fst (puts l m)) <-> In p (map fst l) \/ In p (map fst m).
Proof.
  induction l as [|[k rs] l IH]; intros m p; [cbn; tauto|]. change (puts ((k, rs) :: l) m) with (put_at k rs (puts l m)). rewrite put_at_keys, IH. cbn [map fst In]. intuition congruence.
Qed.
Lemma puts_nodup : forall l m, NoDup (map fst m) -> NoDup (map fst (puts l m)).
Proof. induction l as [|[k rs] l IH]; intros m N; [exact N|]. change (puts ((k, rs) :: l) m) with (put_at k rs (puts l m)). apply put_at_nodup. exact (IH m N). Qed.
Lemma puts_in : forall l m p rs, NoDup (map fst m) -> In (p, rs) (puts l m) -> In (p, rs) l \/ (~ In p (map fst l) /\ In (p, rs) m).
Proof.
  induction l as [|[k rs1] l IH]; intros m p rs N I; [right; split; [intros []|exact I]|]. change (puts ((k, rs1) :: l) m) with (put_at k rs1 (puts l m)) in I.
  apply put_at_in in I; [|apply puts_nodup; exact N]. destruct I as [[-> ->]|[Hn I]]; [left; left; reflexivity|].
  destruct (IH m p rs N I) as [H|[H1 H2]]; [left; right; exact H|right]. split; [|exact H2]. cbn [map fst In]. intros [H|H]; [congruence|exact (H1 H)].
Qed.

Lemma runes_at_in : forall m k, NoDup (map fst m) -> (In k (map fst m) /\ In (k, runes_at k m) m) \/ (~ In k (map fst m) /\ runes_at k m = []).
Proof.
  induction m as [|[k' rs'] m IH]; intros k N; cbn [runes_at map fst In] in *; [right; split; [intros []|reflexivity]|].
  inversion N as [|? ? Nk Nm]; subst. destruct (bytes_eqb k' k) eqn:E.
  - apply bytes_eqb_spec in E. subst k'. left. split; left; reflexivity.
  - pose proof (bytes_eqb_neq _ _ E) as Hk. destruct (IH k Nm) as [[H1 H2]|[H1 H2]]; [left; split; right; assumption|right; split; [intros [H|H]; contradiction|exact H2]].
Qed.
Lemma runes_listed : forall m es k cp, says m es -> In cp (runes_at k m) <-> listed es k cp.
Proof.
  intros m es k cp (N & K & V). destruct (runes_at_in m k N) as [[_ I]|[Hn E]].
  - exact (V k _ I cp).
  - rewrite E. split; [intros []|]. intros (a & b & J & _). apply Hn. apply K. exists a, b. exact J.
Qed.
Lemma runes_put : forall m k rs k', k <> k' -> runes_at k' (put_at k rs m) = runes_at k' m.
Proof.
  induction m as [|[k1 rs1] m IH]; intros k rs k' Hn; cbn [put_at runes_at].
  - destruct (bytes_eqb k k') eqn:E; [apply bytes_eqb_spec in E; contradiction|reflexivity].
  - destruct (bytes_eqb k1 k) eqn:E; cbn [runes_at].
    + apply bytes_eqb_spec in E. subst k1. destruct (bytes_eqb k k') eqn:E'; [apply bytes_eqb_spec in E'; contradiction|reflexivity].
    + destruct (bytes_eqb k1 k'); [reflexivity|exact (IH k rs k' Hn)].
Qed.

(** The break file and the extra properties together hold the family. *)
Lemma holds_puts : forall d m es l, sorted_b (map fst d) = true -> says m es -> break_file d es ->
  (forall p, In p (map fst l) <-> In p (map fst d) /\ In p elsewhere) ->
  (forall p rs f, In (p, rs) l -> In (p, f) d -> forall cp, In cp rs <-> scalar cp /\ f cp = true) -> holds d (puts l m).
Proof.
  intros d m es l S (N & K & V) [BN BV] L LV. split.
  - apply NoDup_Permutation; [apply sorted_nodup, sorted_b_ok; exact S|apply puts_nodup; exact N|]. intros p. rewrite puts_keys, L, K, BN.
    destruct (in_dec (list_eq_dec N.eq_dec) p elsewhere); tauto.
  - intros p rs f I If cp. apply puts_in in I; [|exact N]. destruct I as [I|[Hn I]]; [exact (LV p rs f I If cp)|]. rewrite (V p rs I cp). apply (BV p f If).
    intros He. apply Hn. apply L. split; [|exact He]. apply in_map_iff. exists (p, f). split; [reflexivity|exact If].
Qed.

Definition inb (p : bytes) (l : list bytes) : bool := existsb (bytes_eqb p) l.
Lemma inb_in : forall p l, inb p l = true <-> In p l.
Proof.
  intros p l. unfold inb. rewrite existsb_exists. split.
  - intros (x & I & E). apply bytes_eqb_spec in E. subst x. exact I.
  - intros I. exists p. split; [exact I|apply bytes_eqb_refl].
Qed.
Definition same_names (l : list bytes) (d : data) : bool :=
  forallb (fun p => inb p (map fst d) && inb p elsewhere) l && forallb (fun p => negb (inb p elsewhere) || inb p l) (map fst d).
Lemma same_names_ok : forall l d, same_names l d = true -> forall p, In p l <-> In p (map fst d) /\ In p elsewhere.
Proof.
  intros l d E p. apply andb_true_iff in E as [E1 E2]. rewrite forallb_forall in E1, E2. split.
  - intros I. specialize (E1 p I). apply andb_true_iff in E1 as [A B]. split; apply inb_in; assumption.
  - intros [A B]. specialize (E2 p A). apply orb_true_iff in E2 as [H|H]; [apply negb_true_iff in H; apply inb_in in B; congruence|apply inb_in; exact H].
Qed.

Section Main.
  Variable tf tr : bytes -> bytes.
  Definition family_of (p : package) : data := match p with Grapheme => graphemes_data | Word => words_data | Sentence => sentences_data | Phrase => phrases_data end.

  Lemma pict_not_nil : forall es m, emoji_file es -> says m es -> is_nil (runes_at (str "Extended_Pictographic"%string) m) = false.
  Proof.
    intros es m E S. assert (I : In 0x1F600 (runes_at (str "Extended_Pictographic"%string) m)).
    { apply (runes_listed m es _ _ S). apply E. split; [right; split; [discriminate|reflexivity]|vm_compute; reflexivity]. }
    destruct (runes_at (str "Extended_Pictographic"%string) m); [contradiction|reflexivity].
  Qed.
  Lemma cons_not_nil : forall es m, incb_file es -> says m es -> is_nil (runes_at (str "InCB_Consonant"%string) m) = false.
  Proof.
    intros es m (E & _) S. assert (I : In 0x915 (runes_at (str "InCB_Consonant"%string) m)).
    { apply (runes_listed m es _ _ S). apply E. split; [left; reflexivity|vm_compute; reflexivity]. }
    destruct (runes_at (str "InCB_Consonant"%string) m); [contradiction|reflexivity].
  Qed.

  Lemma incb_beq_ok : forall a b, incb_beq a b = true <-> a = b.
  Proof. intros a b. split; [destruct a, b; (reflexivity || discriminate)|intros ->; destruct b; reflexivity]. Qed.

  Lemma main_holds : forall p fe fi fb ee ei eb ideo, file_says fe ee -> file_says fi ei -> file_says fb eb -> emoji_file ee -> incb_file ei -> break_file (family_of p) eb -> ideographs ideo ->
    exists props, main_properties tf tr p fe fi fb ideo = Ok props /\ holds (family_of p) props.
  Proof.
    intros p fe fi fb ee ei eb ideo Fe Fi Fb Ee Ei Eb Id.
    destruct (parse_ok tf tr fe ee Fe) as (me & Pe & Se). destruct (parse_ok tf tr fi ei Fi) as (mi & Pi & Si). destruct (parse_ok tf tr fb eb Fb) as (m & Pb & Sb).
    unfold main_properties, load. rewrite Pe, Pi, Pb. cbn [bind]. unfold assemble.
    pose proof (pict_not_nil ee me Ee Se) as Np. pose proof (cons_not_nil ei mi Ei Si) as Nc.
    pose proof (fun cp => runes_listed me ee (str "Extended_Pictographic"%string) cp Se) as Rp.
    pose proof (fun cp => runes_listed mi ei (str "InCB_Consonant"%string) cp Si) as Rc.
    pose proof (fun cp => runes_listed mi ei (str "InCB_Linker"%string) cp Si) as Rl.
    pose proof (fun cp => runes_listed mi ei (str "InCB_Extend"%string) cp Si) as Rx.
    set (pict := runes_at (str "Extended_Pictographic"%string) me) in *. set (cons := runes_at (str "InCB_Consonant"%string) mi) in *.
    set (link := runes_at (str "InCB_Linker"%string) mi) in *. set (ext := runes_at (str "InCB_Extend"%string) mi) in *.
    clearbody pict cons link ext. destruct Ei as (Ec & El & Ex).
    assert (Vp : forall cp, In cp pict <-> scalar cp /\ ExtPict cp = true) by (intros cp; rewrite Rp; apply Ee).
    assert (Vc : forall cp, In cp cons <-> scalar cp /\ incb_beq (InCB cp) InCB_Consonant = true) by (intros cp; rewrite Rc, incb_beq_ok; apply Ec).
    assert (Vl : forall cp, In cp link <-> scalar cp /\ incb_beq (InCB cp) InCB_Linker = true) by (intros cp; rewrite Rl, incb_beq_ok; apply El).
    assert (Vx : forall cp, In cp ext <-> scalar cp /\ incb_beq (InCB cp) InCB_Extend = true) by (intros cp; rewrite Rx, incb_beq_ok; apply Ex).
    destruct p; cbn [family_of andb] in *; rewrite ?Np, ?Nc; cbn [andb]; eexists; (split; [reflexivity|]).
    - change (holds graphemes_data (puts [(str "InCB_Extend"%string, ext); (str "InCB_Linker"%string, link); (str "InCB_Consonant"%string, cons); (str "Extended_Pictographic"%string, pict)] m)).
      assert (S : sorted_b (map fst graphemes_data) = true) by reflexivity. pose proof (sorted_nodup _ (sorted_b_ok _ S)) as N.
      apply (holds_puts graphemes_data m eb); [exact S|exact Sb|exact Eb|apply same_names_ok; reflexivity|]. intros p rs f I If.
      cbn [In] in I. repeat destruct I as [I|I]; try contradiction; injection I as <- <-.
      + rewrite (nodup_fst_inj _ _ graphemes_data _ f (fun cp => incb_beq (InCB cp) InCB_Extend) N If); [exact Vx|do 5 right; left; reflexivity].
      + rewrite (nodup_fst_inj _ _ graphemes_data _ f (fun cp => incb_beq (InCB cp) InCB_Linker) N If); [exact Vl|do 6 right; left; reflexivity].
      + rewrite (nodup_fst_inj _ _ graphemes_data _ f (fun cp => incb_beq (InCB cp) InCB_Consonant) N If); [exact Vc|do 4 right; left; reflexivity].
      + rewrite (nodup_fst_inj _ _ graphemes_data _ f ExtPict N If); [exact Vp|do 3 right; left; reflexivity].
    - set (bl := runes_at (str "Katakana"%string) (put_at (str "Extended_Pictographic"%string) pict m) ++ ideo).
      change (holds words_data (puts [(str "BleveIdeographic"%string, bl); (str "Extended_Pictographic"%string, pict)] m)).
      assert (S : sorted_b (map fst words_data) = true) by reflexivity. pose proof (sorted_nodup _ (sorted_b_ok _ S)) as N.
      apply (holds_puts words_data m eb); [exact S|exact Sb|exact Eb|apply same_names_ok; reflexivity|]. intros p rs f I If.
      cbn [In] in I. repeat destruct I as [I|I]; try contradiction; injection I as <- <-.
      + rewrite (nodup_fst_inj _ _ words_data _ f BleveIdeographic N If); [|do 1 right; left; reflexivity].
        intros cp. rewrite <- (Id cp). unfold bl. rewrite runes_put by (vm_compute; discriminate). rewrite in_app_iff, (runes_listed m eb _ cp Sb).
        destruct Eb as [_ BV]. rewrite (BV (str "Katakana"%string) (fun cp => wb_beq (WB cp) WB_Katakana)).
        * assert (Q : wb_beq (WB cp) WB_Katakana = true <-> WB cp = WB_Katakana) by (split; [destruct (WB cp); (reflexivity || discriminate)|intros ->; reflexivity]). rewrite Q. tauto.
        * do 9 right; left; reflexivity.
        * intros H. apply inb_in in H. vm_compute in H. discriminate H.
      + rewrite (nodup_fst_inj _ _ words_data _ f ExtPict N If); [exact Vp|do 6 right; left; reflexivity].
    - apply (holds_puts sentences_data m eb []); [reflexivity|exact Sb|exact Eb|apply same_names_ok; reflexivity|intros p rs f []].
    - change (holds phrases_data (puts [(str "Extended_Pictographic"%string, pict)] m)).
      assert (S : sorted_b (map fst phrases_data) = true) by reflexivity. pose proof (sorted_nodup _ (sorted_b_ok _ S)) as N.
      apply (holds_puts phrases_data m eb); [exact S|exact Sb|exact Eb|apply same_names_ok; reflexivity|]. intros p rs f I If.
      cbn [In] in I. repeat destruct I as [I|I]; try contradiction; injection I as <- <-.
      rewrite (nodup_fst_inj _ _ phrases_data _ f ExtPict N If); [exact Vp|do 5 right; left; reflexivity].
  Qed.
End Main.
