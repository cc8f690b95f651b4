(** The buffer of a Scanner outside the data still to be split does not matter. *)
From Verif Require Import Base ListFacts SpecIter SpecApi Scanner Alias SpecAlias.

Record view (s t : scanner) : Prop := {
  v_split : sc_split s = sc_split t; v_max : sc_max s = sc_max t; v_token : sc_token s = sc_token t; v_start : sc_start s = sc_start t; v_end : sc_end s = sc_end t;
  v_err : sc_err s = sc_err t; v_empties : sc_empties s = sc_empties t; v_called : sc_called s = sc_called t;
  v_len : length (sc_buf s) = length (sc_buf t); v_in : sc_start s <= sc_end s <= length (sc_buf s);
  v_data : firstn (sc_end s - sc_start s) (skipn (sc_start s) (sc_buf s)) = firstn (sc_end s - sc_start s) (skipn (sc_start s) (sc_buf t)) }.
Lemma view_slice : forall s t, view s t -> exists d, slice (sc_buf s) (sc_start s) (sc_end s) = Ok d /\ slice (sc_buf t) (sc_start t) (sc_end t) = Ok d /\ length d = sc_end s - sc_start s.
Proof.
  intros s t V. destruct V. eexists. split; [apply slice_ok; lia|]. split; [rewrite slice_ok by (rewrite <- v_start0, <- v_end0, <- v_len0; exact v_in0); rewrite <- v_start0, <- v_end0, v_data0; reflexivity|].
  rewrite firstn_length, skipn_length. lia.
Qed.
Lemma put0_data : forall buf d, length d <= length buf -> firstn (length d - 0) (skipn 0 (put buf 0 d)) = d.
Proof. intros. cbn [skipn]. rewrite Nat.sub_0_r. unfold put. cbn [firstn app]. rewrite firstn_app, firstn_all, Nat.sub_diag. cbn [firstn]. apply app_nil_r. Qed.
Lemma put_len : forall buf i bs, i + length bs <= length buf -> length (put buf i bs) = length buf.
Proof. intros. unfold put. rewrite !app_length, firstn_length, skipn_length. lia. Qed.
Lemma view_buf : forall s t b b' lo hi, view s t -> length b = length b' -> lo <= hi <= length b -> firstn (hi - lo) (skipn lo b) = firstn (hi - lo) (skipn lo b') -> view (with_buf s b lo hi) (with_buf t b' lo hi).
Proof. intros s t b b' lo hi V L B D. destruct V. constructor; try assumption; reflexivity. Qed.
Lemma view_shift : forall s t, view s t -> exists s' t', shift s = Ok s' /\ shift t = Ok t' /\ view s' t'.
Proof.
  intros s t V. unfold shift. rewrite <- (v_start _ _ V), <- (v_end _ _ V), <- (v_len _ _ V). destruct (_ && _); [|exists s, t; repeat split; apply V].
  destruct (view_slice s t V) as (d & D & D' & L). rewrite D. rewrite <- (v_start _ _ V), <- (v_end _ _ V) in D'. rewrite D'. cbn [bind]. do 2 eexists. split; [reflexivity|]. split; [reflexivity|].
  pose proof (v_in _ _ V) as I. pose proof (v_len _ _ V) as LL. apply view_buf; [exact V| | |].
  - rewrite !put_len by lia. exact LL.
  - rewrite put_len by lia. lia.
  - rewrite <- L. rewrite !put0_data by lia. reflexivity.
Qed.
Lemma view_grow : forall s t, view s t -> (grow s = Ok None /\ grow t = Ok None) \/ (exists s' t', grow s = Ok (Some s') /\ grow t = Ok (Some t') /\ view s' t').
Proof.
  intros s t V. unfold grow. rewrite <- (v_start _ _ V), <- (v_end _ _ V), <- (v_len _ _ V), <- (v_max _ _ V). destruct (Nat.eqb_spec (sc_end s) (length (sc_buf s))); [|right; exists s, t; repeat split; apply V].
  destruct (_ || _)%bool eqn:O; [left; split; reflexivity|]. right. destruct (view_slice s t V) as (d & D & D' & L). rewrite D. rewrite <- (v_start _ _ V), <- (v_end _ _ V) in D'. rewrite D'. cbn [bind].
  do 2 eexists. split; [reflexivity|]. split; [reflexivity|]. apply Bool.orb_false_iff in O. destruct O as [O1 O2]. apply N.leb_gt in O1. pose proof (v_in _ _ V) as I.
  match goal with |- context [repeat 0%N ?m] => assert (BM : sc_end s - sc_start s <= m) end.
  { destruct (N.eqb_spec (N.of_nat (length (sc_buf s)) * 2) 0); unfold startBufSize; lia. }
  apply view_buf; [exact V|reflexivity| |reflexivity]. rewrite put_len by (rewrite repeat_length; lia). rewrite repeat_length. lia.
Qed.
Lemma view_err : forall s t e, view s t -> view (set_err s e) (set_err t e).
Proof. intros s t e V. destruct V. unfold set_err. constructor; cbn; try assumption. now rewrite v_err0. Qed.
Lemma view_token : forall s t o n, view s t -> view (with_token s o n) (with_token t o n).
Proof. intros s t o n V. destruct V. unfold with_token. constructor; cbn; try assumption; reflexivity. Qed.
Lemma view_called : forall s t, view s t -> view (with_called s) (with_called t).
Proof. intros s t V. destruct V. unfold with_called. constructor; cbn; try assumption; reflexivity. Qed.
Lemma fit_length : forall n l, length (fit n l) = n.
Proof. intros. unfold fit. rewrite firstn_length, app_length, repeat_length. lia. Qed.
Lemma firstn_three : forall (a b c : bytes) n, n = length a + length b -> firstn n (a ++ b ++ c) = a ++ b.
Proof. intros. subst. rewrite app_assoc, <- app_length, firstn_app, firstn_all, Nat.sub_diag. cbn. apply app_nil_r. Qed.

Lemma data_read : forall (buf bs x : bytes) lo hi, lo <= hi <= length buf -> firstn (hi + length bs - lo) (skipn lo (firstn hi buf ++ bs ++ x)) = firstn (hi - lo) (skipn lo buf) ++ bs.
Proof.
  intros buf bs x lo hi B. rewrite skipn_app, firstn_length, (Nat.min_l hi) by lia. replace (lo - hi) with 0 by lia. cbn [skipn]. rewrite skipn_firstn_comm. apply firstn_three. rewrite firstn_length, skipn_length. lia.
Qed.
Lemma view_read : forall s t bs x, view s t -> length bs <= length (sc_buf s) - sc_end s -> length x = length (sc_buf s) - sc_end s - length bs ->
  view (with_buf s (put (sc_buf s) (sc_end s) bs) (sc_start s) (sc_end s + length bs)) (with_buf t (firstn (sc_end s) (sc_buf t) ++ bs ++ x) (sc_start s) (sc_end s + length bs)).
Proof.
  intros s t bs x V L X. pose proof (v_in _ _ V) as I. pose proof (v_len _ _ V) as LL. apply view_buf; [exact V| | |].
  - rewrite put_len by lia. rewrite !app_length, firstn_length. lia.
  - rewrite put_len by lia. lia.
  - unfold put. rewrite !data_read by lia. f_equal. apply (v_data _ _ V).
Qed.

Section Run.
  Variable rd : reader.
  Variable scratch : rd_St rd -> nat -> bytes.
  Lemma view_fill : forall tries s t r, view s t -> exists s' t' r', fill rd tries s r = (s', r') /\ fill_s rd scratch tries t r = (t', r') /\ view s' t'.
  Proof.
    induction tries as [|tries IH]; intros s t r V; cbn [fill fill_s]; rewrite <- (v_end _ _ V), <- (v_len _ _ V), <- (v_start _ _ V);
      destruct (rd_read rd r (length (sc_buf s) - sc_end s)) as [[bs err] r'];
      (destruct (Nat.ltb_spec (length (sc_buf s) - sc_end s) (length bs)) as [L|L]; [do 3 eexists; repeat (split; [reflexivity|]); now apply view_err|]);
      pose proof (view_read s t bs (fit (length (sc_buf s) - sc_end s - length bs) (scratch r (length (sc_buf s) - sc_end s))) V L (fit_length _ _)) as V1;
      (destruct err as [e|]; [do 3 eexists; repeat (split; [reflexivity|]); now apply view_err|]);
      (destruct (0 <? length bs)%nat; [do 3 eexists; repeat (split; [reflexivity|]); cbn [sc_token with_buf]; rewrite (v_token _ _ V); now apply view_token|]).
    - do 3 eexists. repeat (split; [reflexivity|]). now apply view_err.
    - exact (IH _ _ r' V1).
  Qed.
  Definition same (x y : res (bool * scanner * rd_St rd)) : Prop :=
    match x, y with
    | Ok (b, s, r), Ok (b', s', r') => b = b' /\ view s s' /\ r = r'
    | Panic, Panic | OutOfFuel, OutOfFuel => True
    | _, _ => False
    end.
  Lemma view_loop : forall fuel s t r, view s t -> same (scan_loop rd fuel s r) (scan_loop_s rd scratch fuel t r).
  Proof.
    induction fuel as [|fuel IH]; intros s t r V; [exact I|]. cbn [scan_loop scan_loop_s].
    assert (MORE : forall s t, view s t -> same
       (match sc_err s with Some _ => Ok (false, with_buf s (sc_buf s) 0 0, r) | None => s <- shift s ;; g <- grow s ;; match g with None => Ok (false, set_err s ErrTooLong, r) | Some s => let '(s, r') := fill rd maxConsecutiveEmptyReads s r in scan_loop rd fuel s r' end end)
       (match sc_err t with Some _ => Ok (false, with_buf t (sc_buf t) 0 0, r) | None => s <- shift t ;; g <- grow s ;; match g with None => Ok (false, set_err s ErrTooLong, r) | Some s => let '(s, r') := fill_s rd scratch maxConsecutiveEmptyReads s r in scan_loop_s rd scratch fuel s r' end end)).
    { clear s t V. intros s t V. rewrite <- (v_err _ _ V). destruct (sc_err s).
      - split; [reflexivity|]. split; [|reflexivity]. apply view_buf; [exact V|apply V|lia|reflexivity].
      - destruct (view_shift s t V) as (s1 & t1 & -> & -> & V1). cbn [bind]. destruct (view_grow s1 t1 V1) as [(-> & ->)|(s2 & t2 & -> & -> & V2)]; cbn [bind].
        + split; [reflexivity|]. split; [now apply view_err|reflexivity].
        + destruct (view_fill maxConsecutiveEmptyReads s2 t2 r V2) as (s3 & t3 & r' & -> & -> & V3). now apply IH. }
    pose proof (MORE s t V) as M0. rewrite <- (v_err _ _ V) in M0. rewrite <- (v_err _ _ V). set (he := match sc_err s with Some _ => true | None => false end). 
    destruct (view_slice s t V) as (d & D & D' & L). rewrite D, D'. rewrite <- (v_start _ _ V), <- (v_end _ _ V), <- (v_split _ _ V).
    destruct (_ || _); [|exact M0]. cbn [bind]. destruct (sc_split s d he) as [o| |]; [|exact I|exact I]. cbn [bind]. destruct (so_err o).
    { split; [reflexivity|]. split; [now apply view_err|reflexivity]. }
    destruct (_ <? 0)%Z. { split; [reflexivity|]. split; [now apply view_err|reflexivity]. }
    destruct (Nat.ltb_spec (sc_end s - sc_start s) (Z.to_nat (so_advance o))) as [B|B]. { split; [reflexivity|]. split; [now apply view_err|reflexivity]. }
    assert (V1 : view (with_buf s (sc_buf s) (sc_start s + Z.to_nat (so_advance o)) (sc_end s)) (with_buf t (sc_buf t) (sc_start s + Z.to_nat (so_advance o)) (sc_end s))).
    { pose proof (v_in _ _ V) as IN. apply view_buf; [exact V|apply V|lia|]. set (n := Z.to_nat (so_advance o)) in *. pose proof (f_equal (skipn n) (v_data _ _ V)) as E. rewrite !skipn_firstn_comm, !skipn_skipn in E.
      replace (sc_end s - (sc_start s + n)) with (sc_end s - sc_start s - n) by lia. replace (sc_start s + n) with (n + sc_start s) by lia. exact E. }
    cbn [sc_empties with_buf]. rewrite <- (v_empties _ _ V). destruct (so_token o) as [tok|].
    - destruct (_ || _). { split; [reflexivity|]. split; [now apply view_token|reflexivity]. } destruct (_ <? _)%nat; [exact I|]. split; [reflexivity|]. split; [now apply view_token|reflexivity].
    - apply MORE. apply view_token. exact V1.
  Qed.
  Variable hand : nat -> bytes -> bytes.
  Lemma view_scribble : forall i s t, view s t -> view s (scribble hand i t).
  Proof.
    intros i s t V. unfold scribble. pose proof (v_in _ _ V) as IN. destruct V. constructor; cbn; try assumption.
    - rewrite app_length, fit_length, skipn_length. lia.
    - rewrite v_data0. rewrite v_start0, skipn_app, fit_length, Nat.sub_diag, (skipn_all2 (fit (sc_start t) (hand i (sc_buf t)))) by (rewrite fit_length; lia). reflexivity.
  Qed.
  Lemma view_all : forall fuel i s t r, view s t -> scan_all_s rd scratch hand fuel i t r = scan_all rd fuel s r.
  Proof.
    induction fuel as [|fuel IH]; intros i s t r V; [reflexivity|]. cbn [scan_all scan_all_s]. unfold Scan.
    pose proof (view_loop (S fuel) (with_called s) (with_called t) r (view_called _ _ V)) as S.
    destruct (scan_loop rd (Datatypes.S fuel) (with_called s) r) as [[[b s1] r1]| |], (scan_loop_s rd scratch (Datatypes.S fuel) (with_called t) r) as [[[b' t1] r1']| |]; try contradiction; try reflexivity.
    destruct S as (<- & V1 & <-). cbn [bind]. destruct b.
    - rewrite (IH (Datatypes.S i) s1 (scribble hand i t1) r1) by (apply view_scribble; exact V1). destruct (scan_all rd fuel s1 r1) as [[l e]| |]; try reflexivity. cbn [bind]. unfold Bytes. rewrite (v_token _ _ V1). reflexivity.
    - unfold Err. rewrite (v_err _ _ V1). reflexivity.
  Qed.
End Run.
Lemma view_refl : forall s, sc_start s <= sc_end s <= length (sc_buf s) -> view s s.
Proof. intros s H. constructor; try reflexivity. exact H. Qed.
Lemma private : forall f, buffer_is_private f.
Proof. intros f rd scratch hand fuel s r _ B. apply view_all. apply view_refl. exact B. Qed.
