(** From runs of the scanner to the tokens of the iterators. *)
From Verif Require Import Base ListFacts Engine SpecIter SpecApi Drive ApiFacts ConformApi Scanner SpecReader ScannerFacts.

Lemma fresh_live : forall f rd r d e s, fresh_scanner f s -> delivers rd r d e -> live f rd s r d d e.
Proof.
  intros f rd r d e s Hs HD. destruct Hs as [|buf max s HB]; [|injection HB as <-].
  - split; [reflexivity|]. split; [unfold bounds; cbn; lia|]. split; [reflexivity|]. split; [exact HD|reflexivity].
  - split; [reflexivity|]. split; [unfold bounds; cbn; lia|]. split; [reflexivity|]. split; [exact HD|reflexivity].
Qed.

Section Reads.
  Variable f : splitfun.
  Hypothesis OK : split_ok f.
  Variable iterate : nat -> bytes -> res (list bytes).
  Hypothesis AGREE : forall d fuel l, length d < fuel -> chop f (S (length d)) d = Ok l -> iterate fuel d = Ok l.

  Lemma reads_prefix_ok : reads_prefix iterate f.
  Proof.
    intros rd r d e s fuel HD HS Hf. destruct (all_live f OK rd d fuel s r d e Hf (fresh_live _ _ _ _ _ _ HS HD)) as (l & err & HA & HFin).
    exists l, err. split; [exact HA|]. destruct HFin as [E1 E2|E1 E2|D1 D2 E1 E2 E3|l2 p E1 E2 E3].
    - split; [exact E1|]. apply AGREE; [lia|exact E2].
    - split; [reflexivity|]. split; [exact E1|]. apply AGREE; [lia|exact E2].
    - exists (pending s ++ D1), D2. split; [exact E2|]. apply AGREE; [|exact E3]. apply (f_equal (@length N)) in E2. rewrite (app_length _ D2) in E2. lia.
    - exists l2. apply AGREE; [lia|exact E1].
  Qed.
  Lemma reads_all_ok : reads_all iterate f.
  Proof.
    intros rd r d s fuel HD HS Hf. destruct (reads_prefix_ok rd r d EOF s fuel HD HS Hf) as (l & err & HA & HFin). exists l, err.
    split; [exact HA|]. intros ->. apply HFin.
  Qed.
  Lemma reads_all_short_ok : reads_all_short iterate f.
  Proof.
    intros rd r d s fuel HD HV HS Hm Hf. destruct (all_live f OK rd d fuel s r d EOF Hf (fresh_live _ _ _ _ _ _ HS HD)) as (l & err & HA & HFin).
    exists l. destruct HFin as [E1 E2|E1 E2|D1 D2 E1 E2 E3|l2 p E1 E2 E3].
    - split; [exact HA|]. apply AGREE; [lia|exact E2].
    - congruence.
    - contradiction.
    - exfalso. unfold limit in E3. assert (maxInt / 2 = 4611686018427387903)%N by reflexivity. change (2 ^ 62)%N with 4611686018427387904%N in Hm.
      assert (N.of_nat (length p) <= N.of_nat (length d))%N by lia. lia.
  Qed.
End Reads.

(** The test readers do what they say. *)
Lemma chunk_delivers : forall e cs, delivers (chunk_reader e) cs (concat cs) e.
Proof.
  intros e. cofix CH. intros cs. constructor.
  - intros room bs err r' Hr HE. cbn [rd_read chunk_reader] in HE. destruct cs as [|c rest].
    + injection HE as <- <- <-. split; [cbn; lia|]. exists []. auto.
    + destruct (room <? length c) eqn:EL; injection HE as <- <- <-.
      * apply Nat.ltb_lt in EL. split; [rewrite firstn_length; lia|]. exists (skipn room c ++ concat rest). split; [|auto].
        cbn [concat]. rewrite app_assoc, firstn_skipn. reflexivity.
      * apply Nat.ltb_ge in EL. split; [exact EL|]. exists (concat rest). auto.
  - intros room bs r' rest0 Hr HE HD. cbn [rd_read chunk_reader] in HE. destruct cs as [|c rest].
    + discriminate.
    + assert (rest0 = concat r') as ->; [|apply CH]. destruct (room <? length c) eqn:EL; injection HE as <- <-; cbn [concat] in *.
      * rewrite <- (firstn_skipn room c), <- app_assoc in HD at 1. apply app_inv_head in HD. symmetry. exact HD.
      * apply app_inv_head in HD. symmetry. exact HD.
Qed.
Lemma chunk_lively : forall e cs k, Forall (fun c => c <> []) cs -> lively (chunk_reader e) k cs.
Proof.
  intros e. cofix CH. intros cs k HF. constructor.
  - intros room r' Hr HE. exfalso. cbn [rd_read chunk_reader] in HE. destruct cs as [|c rest]; [discriminate|].
    inversion HF; subst. destruct (room <? length c) eqn:EL.
    + apply Nat.ltb_lt in EL. injection HE as E _. apply (f_equal (@length N)) in E. rewrite firstn_length in E. cbn in E. lia.
    + injection HE as E _. congruence.
  - intros room bs r' Hr HE _. cbn [rd_read chunk_reader] in HE. destruct cs as [|c rest]; [discriminate|].
    inversion HF; subst. apply CH. destruct (room <? length c) eqn:EL; injection HE as <- <-; [|assumption]. apply Nat.ltb_lt in EL.
    constructor; [|assumption]. intros E. apply (f_equal (@length N)) in E. rewrite skipn_length in E. cbn in E. lia.
Qed.
Lemma eager_delivers : forall e cs, delivers (eager_reader e) cs (concat cs) e.
Proof.
  intros e. cofix CH. intros cs. constructor.
  - intros room bs err r' Hr HE. cbn [rd_read eager_reader] in HE. destruct cs as [|c rest].
    + injection HE as <- <- <-. split; [cbn; lia|]. exists []. auto.
    + destruct (room <? length c) eqn:EL.
      * injection HE as <- <- <-. apply Nat.ltb_lt in EL. split; [rewrite firstn_length; lia|]. exists (skipn room c ++ concat rest). split; [|auto].
        cbn [concat]. rewrite app_assoc, firstn_skipn. reflexivity.
      * apply Nat.ltb_ge in EL. destruct rest as [|c2 rest]; injection HE as <- <- <-; (split; [exact EL|]).
        -- exists []. auto.
        -- exists (concat (c2 :: rest)). auto.
  - intros room bs r' rest0 Hr HE HD. cbn [rd_read eager_reader] in HE. destruct cs as [|c rest].
    + discriminate.
    + assert (rest0 = concat r') as ->; [|apply CH]. destruct (room <? length c) eqn:EL.
      * injection HE as <- <-; cbn [concat] in *. rewrite <- (firstn_skipn room c), <- app_assoc in HD at 1. apply app_inv_head in HD. symmetry. exact HD.
      * destruct rest as [|c2 rest]; [discriminate|]. injection HE as <- <-. cbn [concat] in *. apply app_inv_head in HD. symmetry. exact HD.
Qed.
