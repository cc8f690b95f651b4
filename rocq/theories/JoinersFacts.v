(** Facts about absent joiners and about Split. *)
From Verif Require Import Base ListFacts Trie Engine SpecIter SpecApi Drive ApiFacts ApiInst ConformApi Scanner SpecJoiners.
From Verif Require Import TableWords.
From Verif Require Words WordsIter WordsEngine.
Import Words.

(** ** Two scanners that differ in their split functions only, pointwise equal *)
Definition same (s s' : scanner) : Prop :=
  (forall d b, sc_split s d b = sc_split s' d b) /\ sc_max s = sc_max s' /\ sc_token s = sc_token s' /\ sc_buf s = sc_buf s'
  /\ sc_start s = sc_start s' /\ sc_end s = sc_end s' /\ sc_err s = sc_err s' /\ sc_empties s = sc_empties s' /\ sc_called s = sc_called s'.

Ltac same_tac := unfold same in *; cbn [with_buf with_token with_called set_err sc_split sc_max sc_token sc_buf sc_start sc_end sc_err sc_empties sc_called] in *;
  intuition (try congruence).

Lemma same_shift : forall s s', same s s' -> match shift s, shift s' with Ok a, Ok b => same a b | Panic, Panic => True | OutOfFuel, OutOfFuel => True | _, _ => False end.
Proof.
  intros s s' (H1 & H2 & H3 & H4 & H5 & H6 & H7 & H8 & H9). unfold shift. rewrite <- H4, <- H5, <- H6. destruct (_ && _); [|same_tac].
  destruct (slice _ _ _); cbn [bind]; try exact I. same_tac.
Qed.
Lemma same_grow : forall s s', same s s' -> match grow s, grow s' with Ok (Some a), Ok (Some b) => same a b | Ok None, Ok None => True | Panic, Panic => True | OutOfFuel, OutOfFuel => True | _, _ => False end.
Proof.
  intros s s' (H1 & H2 & H3 & H4 & H5 & H6 & H7 & H8 & H9). unfold grow. rewrite <- H2, <- H4, <- H5, <- H6. destruct (Nat.eqb _ _); [|same_tac].
  cbv zeta. destruct (_ || _); [exact I|]. destruct (slice _ _ _); cbn [bind]; try exact I. same_tac.
Qed.
Lemma same_err : forall s s' e, same s s' -> same (set_err s e) (set_err s' e).
Proof. intros s s' e H. unfold same in *. cbn [set_err sc_split sc_max sc_token sc_buf sc_start sc_end sc_err sc_empties sc_called]. destruct H as (H1 & H2 & H3 & H4 & H5 & H6 & H7 & H8 & H9). rewrite H7. auto 10. Qed.
Lemma same_fill : forall rd tries s s' r, same s s' -> same (fst (fill rd tries s r)) (fst (fill rd tries s' r)) /\ snd (fill rd tries s r) = snd (fill rd tries s' r).
Proof.
  intros rd. induction tries as [|tries IH]; intros s s' r H; pose proof H as (H1 & H2 & H3 & H4 & H5 & H6 & H7 & H8 & H9); cbn [fill];
    rewrite <- H4, <- H6; destruct (rd_read rd r _) as [[bs err] r']; (destruct (_ <? length bs)%nat; [split; [apply same_err; exact H|reflexivity]|]);
    (assert (HB : same (with_buf s (put (sc_buf s) (sc_end s) bs) (sc_start s) (sc_end s + length bs))
                    (with_buf s' (put (sc_buf s) (sc_end s) bs) (sc_start s') (sc_end s + length bs))) by same_tac);
    (destruct err as [e|]; [split; [apply same_err; exact HB|reflexivity]|]); destruct (0 <? length bs)%nat.
  - split; [|reflexivity]. same_tac.
  - split; [apply same_err; exact HB|reflexivity].
  - split; [|reflexivity]. same_tac.
  - apply IH. exact HB.
Qed.

Definition same_res {R : Type} (a b : res (bool * scanner * R)) : Prop :=
  match a, b with
  | Ok (x, s, r), Ok (y, s', r') => x = y /\ same s s' /\ r = r'
  | Panic, Panic => True
  | OutOfFuel, OutOfFuel => True
  | _, _ => False
  end.

Lemma same_loop : forall rd fuel s s' r, same s s' -> same_res (scan_loop rd fuel s r) (scan_loop rd fuel s' r).
Proof.
  intros rd. induction fuel as [|fuel IH]; intros s s' r H; [exact I|].
  assert (MORE : forall a a', same a a' -> same_res
    (match sc_err a with
     | Some _ => Ok (false, with_buf a (sc_buf a) 0 0, r)
     | None => s <- shift a ;; g <- grow s ;;
       match g with
       | None => Ok (false, set_err s ErrTooLong, r)
       | Some s => let '(s, r') := fill rd maxConsecutiveEmptyReads s r in scan_loop rd fuel s r'
       end
     end)
    (match sc_err a' with
     | Some _ => Ok (false, with_buf a' (sc_buf a') 0 0, r)
     | None => s <- shift a' ;; g <- grow s ;;
       match g with
       | None => Ok (false, set_err s ErrTooLong, r)
       | Some s => let '(s, r') := fill rd maxConsecutiveEmptyReads s r in scan_loop rd fuel s r'
       end
     end)).
  { intros a a' Ha. assert (EE : sc_err a = sc_err a') by apply Ha. rewrite <- EE. destruct (sc_err a).
    - cbn [same_res]. split; [reflexivity|]. split; [|reflexivity]. same_tac.
    - pose proof (same_shift a a' Ha) as HS. destruct (shift a) as [b| |], (shift a') as [b'| |]; try contradiction; try exact I. cbn [bind].
      pose proof (same_grow b b' HS) as HG. destruct (grow b) as [[c|]| |], (grow b') as [[c'|]| |]; try contradiction; try exact I; cbn [bind].
      + destruct (same_fill rd maxConsecutiveEmptyReads c c' r HG) as [F1 F2]. destruct (fill rd _ c r) as [x1 x2], (fill rd _ c' r) as [y1 y2].
        cbn [fst snd] in *. subst y2. apply IH. exact F1.
      + split; [reflexivity|]. split; [apply same_err; exact HS|reflexivity]. }
  cbn [scan_loop]. pose proof H as (H1 & H2 & H3 & H4 & H5 & H6 & H7 & H8 & H9). rewrite <- H4, <- H5, <- H6, <- H7.
  destruct (_ || _).
  2:{ pose proof (MORE s s' H) as M. rewrite <- H4, <- H7 in M. exact M. }
  destruct (slice _ _ _) as [d| |]; cbn [bind]; try exact I. rewrite <- H1. destruct (sc_split s d _) as [o| |]; cbn [bind]; try exact I.
  destruct (so_err o). { split; [reflexivity|]. split; [apply same_err; exact H|reflexivity]. }
  destruct (so_advance o <? 0)%Z. { split; [reflexivity|]. split; [apply same_err; exact H|reflexivity]. }
  destruct (_ <? Z.to_nat _)%nat. { split; [reflexivity|]. split; [apply same_err; exact H|reflexivity]. }
  destruct (so_token o) as [tok|].
  - destruct (negb _ || _). { split; [reflexivity|]. split; [same_tac|reflexivity]. }
    cbn [with_buf sc_empties]. rewrite <- H8. destruct (_ <? _)%nat; [exact I|]. split; [reflexivity|]. split; [same_tac|reflexivity].
  - apply MORE. same_tac.
Qed.

Lemma same_all : forall rd fuel s s' r, same s s' -> scan_all rd fuel s r = scan_all rd fuel s' r.
Proof.
  intros rd. induction fuel as [|fuel IH]; intros s s' r H; [reflexivity|]. cbn [scan_all]. unfold Scan.
  assert (HC : same (with_called s) (with_called s')) by same_tac.
  pose proof (same_loop rd (S fuel) _ _ r HC) as HL. destruct (scan_loop rd (S fuel) (with_called s) r) as [[[x a] y]| |], (scan_loop rd (S fuel) (with_called s') r) as [[[x' a'] y']| |];
    cbn [same_res bind] in *; try contradiction; try reflexivity.
  destruct HL as (<- & HA & <-). destruct x.
  - rewrite (IH _ _ _ HA). unfold Bytes. destruct HA as (_ & _ & -> & _). reflexivity.
  - unfold Err. destruct HA as (_ & _ & _ & _ & _ & _ & -> & _). reflexivity.
Qed.

(** ** Absent joiners *)
Lemma absent_split : forall d b, joinersSplitFunc None d b = joinersSplitFunc (Some {| Middle := []; Leading := [] |}) d b.
Proof.
  intros d b. unfold joinersSplitFunc. destruct (is_nil d); [reflexivity|]. destruct (slice_from d 0) as [x| |]; try reflexivity. cbn [bind].
  destruct (words_lookup x) as [[v w]| |]; try reflexivity. cbn [bind]. destruct (Nat.eqb w 0); [reflexivity|].
  cbn [leadingBits Leading runesContain]. cbv zeta.
  assert (HL : forall fuel s, w_loop fuel None d b s = w_loop fuel (Some {| Middle := []; Leading := [] |}) d b s).
  { induction fuel as [|fuel IH]; intros s; [reflexivity|]. cbn [w_loop]. cbn [middleBits Middle runesContain].
    repeat match goal with
    | |- (if ?c then _ else _) = _ => destruct c; try reflexivity
    | |- bind ?e _ = _ => destruct e; cbn [bind]; try reflexivity
    | |- context [let '(_, _) := ?x in _] => destruct x; cbn [bind]
    | |- context [match ?x with WJoin _ _ => _ | _ => _ end] => destruct x; try reflexivity
    end; apply IH. }
  rewrite HL. reflexivity.
Qed.

Lemma k_after_absent : forall cs k, no_joiners k -> without_joiners cs -> no_joiners (@k_after words_api _ (fun c _ => c) cs k).
Proof.
  induction cs as [|c cs IH]; intros k Hk H; [exact Hk|]. destruct c; cbn [k_after without_joiners] in *; try (apply IH; assumption).
  apply IH; tauto.
Qed.
Lemma absent_same : forall j k, no_joiners j -> no_joiners k -> forall d b, joinersSplitFunc j d b = joinersSplitFunc k d b.
Proof. intros j k [-> | ->] [-> | ->] d b; rewrite ?absent_split; reflexivity. Qed.
Lemma isplit_same : forall f g, (forall d b, f d b = g d b) -> forall d b, WordsIter.w_isplit f d b = WordsIter.w_isplit g d b.
Proof. intros f g H d b. unfold WordsIter.w_isplit. rewrite H. reflexivity. Qed.

Lemma absent_iterator : forall cs d j, without_joiners cs -> no_joiners j -> exists it, history words_api cs (FromBytes d) = Ok it
  /\ forall fuel, length (text_after words_api cs d) < fuel -> exists l, tokens words_api fuel it = Ok l /\ tokens words_api fuel (setJoiners it j) = Ok l.
Proof.
  intros cs d j Hcs Hj. destruct (history_new words_api_ok cs d) as (it & H1 & H2 & H3 & H4). exists it. split; [exact H1|]. intros fuel Hf.
  set (k := @k_after words_api _ (fun c _ => c) cs (Some {| Middle := []; Leading := [] |})) in *. assert (Hk : no_joiners k) by (apply k_after_absent; [right; reflexivity|exact Hcs]).
  destruct (collect_chop (ao_next _ _ _ _ _ _ _ _ words_api_ok k) fuel it fuel H2) as (l & Hl & Hc); try (rewrite H4; lia).
  assert (H2' : it_split (setJoiners it j) = joinersSplitFunc j) by reflexivity.
  destruct (collect_chop (ao_next _ _ _ _ _ _ _ _ words_api_ok j) fuel (setJoiners it j) fuel H2') as (l' & Hl' & Hc').
  { change (it_data (setJoiners it j)) with (it_data it). rewrite H4. lia. } { change (it_data (setJoiners it j)) with (it_data it). rewrite H4. lia. }
  exists l. split; [exact Hl|]. unfold tokens in *. change (a_next words_api) with Next in *. change (a_value words_api) with Value in *. rewrite Hl'. f_equal.
  change (it_data (setJoiners it j)) with (it_data it) in Hc'. change (it_pos (setJoiners it j)) with (it_pos it) in Hc'.
  rewrite (chop_ext _ _ (isplit_same _ _ (absent_same j k Hj Hk))) in Hc'. rewrite Hc in Hc'. injection Hc' as ->. reflexivity.
Qed.

(** ** Joiners without a space in the middle *)
Lemma space_middle_spec : forall j, no_middle_space j -> WordsIter.space_middle j = false.
Proof.
  intros [jj|] H; [|reflexivity]. cbn in *. destruct (runesContain (Middle jj) 32) eqn:E; [|reflexivity]. exfalso. apply H.
  clear H. induction (Middle jj) as [|x xs IH]; [discriminate|]. cbn in E. destruct (N.eqb_spec x 32); [left; exact e|right; auto].
Qed.
Lemma joiners_agree : forall j, no_middle_space j -> forall d fuel l, length d < fuel -> chop (joinersSplitFunc j) (S (length d)) d = Ok l ->
  tokens words_api fuel (setJoiners (FromBytes d) j) = Ok l.
Proof.
  intros j Hj d fuel l Hf Hc.
  destruct (collect_chop (ao_next _ _ _ _ _ _ _ _ words_api_ok j) fuel (setJoiners (FromBytes d) j) (S (length d)) (eq_refl (joinersSplitFunc j))) as (l' & Hl' & Hc').
  { cbn. lia. } { cbn. lia. }
  change (chop (WordsIter.w_isplit (joinersSplitFunc j)) (S (length d)) d = Ok l') in Hc'.
  rewrite (chop_eof _ _ (WordsIter.hot_path_agrees j (space_middle_spec j Hj))) in Hc'. rewrite Hc in Hc'. injection Hc' as ->. exact Hl'.
Qed.

(** ** Split *)
Lemma alnum_spec : forall b, isASCIIAlphanumeric b = true -> ascii_alphanumeric b.
Proof. intros b H. unfold isASCIIAlphanumeric, ascii_alphanumeric in *. rewrite !orb_true_iff, !andb_true_iff, !N.leb_le in H. tauto. Qed.
Lemma run_forall : forall d, Forall ascii_alphanumeric (firstn (alnum_run d) d).
Proof. induction d as [|b d IH]; [constructor|]. cbn [alnum_run]. destruct (isASCIIAlphanumeric b) eqn:E; [|constructor]. cbn [firstn]. constructor; [apply alnum_spec; exact E|exact IH]. Qed.
Lemma hot_plain : forall d k, WordsIter.hot_run d = Some k -> plain_word d k.
Proof.
  intros d k H. pose proof (WordsIter.hot_run_le _ _ H) as Hk. split; [exact Hk|]. destruct d as [|b s]; [discriminate|]. unfold WordsIter.hot_run in H.
  destruct (isASCIIAlphanumeric b) eqn:E; [|discriminate].
  assert (HF : Forall ascii_alphanumeric (firstn (S (alnum_run s)) (b :: s))). { cbn [firstn]. constructor; [apply alnum_spec; exact E|apply run_forall]. }
  destruct (skipn (S (alnum_run s)) (b :: s)) as [|b' r] eqn:ES.
  - injection H as <-. split; [exact HF|]. rewrite ES. exact I.
  - destruct (N.eqb_spec b' 0x20); [|discriminate]. injection H as <-. split; [exact HF|]. rewrite ES. exact e.
Qed.

Lemma by_chop : forall f, well_behaved f -> forall fuel d l, length d < fuel -> chop f fuel d = Ok l -> tokens_by f d l.
Proof.
  intros f Hf. induction fuel as [|fuel IH]; intros d l Hl HC; [lia|]. cbn [chop] in HC. destruct d as [|c d0].
  - injection HC as <-. constructor.
  - set (d := c :: d0) in *. change (is_nil d) with false in HC. cbv iota in HC.
    destruct (Hf d ltac:(discriminate)) as (n & Hn & Hs). rewrite Hs in HC. cbn [bind so_token so_advance] in HC. rewrite Nat2Z.id in HC.
    destruct (chop f fuel (skipn n d)) as [l'| |] eqn:EC; cbn [bind] in HC; try discriminate. injection HC as <-.
    apply by_cons; auto. apply IH; [rewrite skipn_length; lia|exact EC].
Qed.

Lemma split_tokens : forall f d fuel, well_behaved f -> length d < fuel ->
  (forall i k, plain_word (skipn i d) k -> f (skipn i d) true = Ok (e_done k (firstn k (skipn i d)))) ->
  exists l, tokens words_api fuel (Split (FromBytes d) f) = Ok l /\ tokens_by f d l.
Proof.
  intros f d fuel Hf Hl Hp.
  destruct (collect_chop (WordsIter.w_next_ok f Hf) fuel (Split (FromBytes d) f) (S (length d)) (eq_refl f)) as (l & HL & HC).
  { cbn. lia. } { cbn. lia. }
  exists l. split; [exact HL|]. cbn [Split it_data it_pos FromBytes skipn] in HC. apply (by_chop f Hf (S (length d))); [lia|]. rewrite <- HC. symmetry.
  clear HL HC l Hl. assert (G : forall n i, chop (WordsIter.w_isplit f) n (skipn i d) = chop f n (skipn i d)).
  { induction n as [|n IH]; intros i; [reflexivity|]. cbn [chop]. destruct (is_nil (skipn i d)); [reflexivity|].
    assert (E : WordsIter.w_isplit f (skipn i d) true = f (skipn i d) true).
    { unfold WordsIter.w_isplit. destruct (WordsIter.hot_run (skipn i d)) as [k|] eqn:EH; [|reflexivity]. symmetry. apply Hp. apply hot_plain. exact EH. }
    rewrite E. destruct (f (skipn i d) true) as [o| |]; try reflexivity. cbn [bind]. destruct (so_token o); [|reflexivity]. rewrite skipn_skipn, IH. reflexivity. }
  apply (G (S (length d)) 0).
Qed.
