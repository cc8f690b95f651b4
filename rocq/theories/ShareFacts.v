(** Taking turns: from single calls that touch only the iterator's own place in memory, to schedules. *)
From Coq Require Import String.
From Verif Require Import SpecIter SpecApi ApiInst.
From Verif Require Import Base GoSyntax GoSem GoFacts SpecCode SpecCode2 SpecIterators SpecShare.
From Verif Require CodeWIter.
Local Open Scope string_scope.
Local Open Scope list_scope.

(** * Memory *)
Definition is_iter (l : nat) (h : heap) : Prop := exists x, hget l h = Some ("Iterator", x).
(** Everything stays; everything but [l] stays. *)
Definition grows (h h' : heap) : Prop := forall l x, hget l h = Some x -> hget l h' = Some x.
Definition frame (l : nat) (h h' : heap) : Prop := forall l' x, l' <> l -> hget l' h = Some x -> hget l' h' = Some x.
Lemma grows_app : forall h g, grows h (h ++ g).
Proof. intros h g l x H. rewrite hget_app; [exact H|eapply hget_bound; exact H]. Qed.
Lemma frame_refl : forall l h, frame l h h. Proof. intros l h l' x _ H. exact H. Qed.
Lemma frame_hset : forall l o h, frame l h (hset l o h).
Proof. intros l o h l' x N H. rewrite CodeWIter.hget_hset_other by congruence. exact H. Qed.
Lemma frame_grows : forall l h h', grows h h' -> frame l h h'.
Proof. intros l h h' G l' x _ H. now apply G. Qed.
Lemma frame_trans : forall l h h' h'', frame l h h' -> frame l h' h'' -> frame l h h''.
Proof. intros l h h' h'' F G l' x N H. apply G; [exact N|]. now apply F. Qed.

(** * One client *)
Definition nocall (o : out (list val)) : out (list val * heap) := match o with Panics => Panics | Forever => Forever | _ => Stuck end.
Section One.
  Variables pg pw ps pp pi : program.
  Variable nils : bool.
  Variables rounds depth : nat.
  Notation start := (start pg pw ps pp pi rounds depth).
  Notation calls := (calls pg pw ps pp pi nils rounds depth).
  Notation alone := (alone pg pw ps pp pi nils rounds depth).
  Notation turn := (turn pg pw ps pp pi nils rounds depth).
  Notation interleave := (interleave pg pw ps pp pi nils rounds depth).
  Notation ptr l := (VPtr "Iterator" (Some l)).
  (** What [R k l h] says of the memory after [k] uses is about place [l] and what no iterator's place holds; [ans k] is what the next use returns. *)
  Record local (c : client) (R : nat -> nat -> heap -> Prop) (ans : nat -> out (list val)) : Prop := {
    lo_start : forall h, exists h', start c h = Done ([ptr (length h)], h') /\ R 0%nat (length h) h' /\ grows h h';
    lo_iter : forall k l h, R k l h -> is_iter l h;
    lo_keep : forall k l h h', R k l h -> (forall l' x, (l' = l \/ ~ is_iter l' h) -> hget l' h = Some x -> hget l' h' = Some x) -> R k l h';
    lo_call : forall k l h u, R k l h -> nth_error (calls c) k = Some u ->
      match ans k with Done vs => exists h', u (ptr l) h = Done (vs, h') /\ R (S k) l h' /\ frame l h h' | o => u (ptr l) h = nocall o end }.

  Fixpoint runl (us : list (val -> heap -> out (list val * heap))) (it : val) (h : heap) : out (list (list val)) :=
    match us with [] => Done [] | u :: r => ' (vs, h) <== u it h ;; l <== runl r it h ;; Done (vs :: l) end.
  Lemma runl_go : forall A p config us it h, runl (map (fun u it => go_use A p rounds depth config it u) us) it h = go_uses A p rounds depth config us it h.
  Proof.
    induction us as [|u us IH]; intros it h; [reflexivity|]. cbn [map runl go_uses]. destruct (go_use A p rounds depth config it u h) as [[vs h']| | |]; try reflexivity. cbn [obind]. now rewrite IH.
  Qed.
  Lemma runl_go_it : forall us it h, runl (map (fun u it => go_it_use pi rounds depth it u) us) it h = go_it_uses pi rounds depth us it h.
  Proof.
    induction us as [|u us IH]; intros it h; [reflexivity|]. cbn [map runl go_it_uses]. destruct (go_it_use pi rounds depth it u h) as [[vs h']| | |]; try reflexivity. cbn [obind]. now rewrite IH.
  Qed.
  Lemma alone_run : forall c k h, alone c k h = ' (vs, h) <== start c h ;; match vs with [it] => runl (firstn k (calls c)) it h | _ => Stuck end.
  Proof.
    intros c k h. destruct c; cbn [SpecShare.alone SpecShare.start SpecShare.calls]; unfold go_client, go_it_client, make;
    match goal with |- context [call ?p ?n ?d ?f ?vs ?h] => destruct (call p n d f vs h) as [[vs' h']| | |] end; try reflexivity; cbn [obind]; destruct vs' as [|it [|]]; try reflexivity;
    rewrite firstn_map; symmetry; first [apply runl_go | apply runl_go_it].
  Qed.
  Fixpoint coll (ans : nat -> out (list val)) (j m : nat) : out (list (list val)) :=
    match m with O => Done [] | S m => vs <== ans j ;; r <== coll ans (S j) m ;; Done (vs :: r) end.
  Lemma coll_snoc : forall ans m j, coll ans j (S m) = (l <== coll ans j m ;; vs <== ans (j + m)%nat ;; Done (l ++ [vs])).
  Proof.
    intros ans. induction m as [|m IH]; intros j.
    - cbn [coll]. rewrite Nat.add_0_r. destruct (ans j); reflexivity.
    - cbn [coll]. destruct (ans j) as [vs| | |]; try reflexivity. cbn [obind]. change (vs0 <== ans (S j) ;; r <== coll ans (S (S j)) m ;; Done (vs0 :: r)) with (coll ans (S j) (S m)). rewrite IH.
      replace (S j + m)%nat with (j + S m)%nat by lia. destruct (coll ans (S j) m); try reflexivity. cbn [obind]. destruct (ans (j + S m)%nat); reflexivity.
  Qed.
  Lemma coll_less : forall ans m j n l, (n <= m)%nat -> coll ans j m = Done l -> exists l', coll ans j n = Done l'.
  Proof.
    intros ans. induction m as [|m IH]; intros j n l L H; (destruct n as [|n]; [eexists; reflexivity|]); [lia|]. cbn [coll] in *.
    destruct (ans j) as [vs| | |]; try discriminate. cbn [obind] in *. destruct (coll ans (S j) m) as [r| | |] eqn:E; try discriminate. 
    destruct (IH (S j) n r ltac:(lia) E) as (l' & ->). eexists; reflexivity.
  Qed.
  Lemma coll_length : forall ans m j l, coll ans j m = Done l -> length l = m.
  Proof.
    intros ans. induction m as [|m IH]; intros j l H; cbn [coll] in H; [injection H as <-; reflexivity|].
    destruct (ans j); try discriminate. cbn [obind] in H. destruct (coll ans (S j) m) eqn:E; try discriminate. injection H as <-. cbn. f_equal. eapply IH. exact E.
  Qed.
  Lemma skipn_nth : forall A (us : list A) j, match nth_error us j with Some u => skipn j us = u :: skipn (S j) us | None => skipn j us = [] end.
  Proof. induction us as [|x us IH]; intros [|j]; try reflexivity. cbn [nth_error skipn]. exact (IH j). Qed.
  Section Client.
    Context {c : client} {R : nat -> nat -> heap -> Prop} {ans : nat -> out (list val)}.
    Hypothesis L : local c R ans.
    Lemma runl_coll : forall m j l h, R j l h -> (j + m <= length (calls c))%nat -> runl (firstn m (skipn j (calls c))) (ptr l) h = coll ans j m.
    Proof.
      induction m as [|m IH]; intros j l h H B; [reflexivity|]. pose proof (skipn_nth _ (calls c) j) as N. destruct (nth_error (calls c) j) as [u|] eqn:E; [|apply nth_error_None in E; lia].
      rewrite N. cbn [firstn runl coll]. pose proof (lo_call _ _ _ L j l h u H E) as S. destruct (ans j) as [vs| | |]; [|rewrite S; reflexivity|rewrite S; reflexivity|rewrite S; reflexivity].
      destruct S as (h' & -> & H' & _). cbn [obind]. rewrite (IH (S j) l h' H') by lia. reflexivity.
    Qed.
    Lemma alone_coll : forall k h, alone c k h = coll ans 0 (Nat.min k (length (calls c))).
    Proof.
      intros k h. rewrite alone_run. destruct (lo_start _ _ _ L h) as (h' & -> & H & _). cbn [obind].
      rewrite <- (runl_coll _ 0 (length h) h' H) by lia. cbn [skipn]. f_equal. destruct (Nat.le_gt_cases k (length (calls c))); [now rewrite Nat.min_l by lia|].
      rewrite Nat.min_r by lia. rewrite !firstn_all2 by lia. reflexivity.
    Qed.
  End Client.

  (** * Many clients *)
  Definition has (s : progress) (l : nat) : Prop := pr_it s = Some (ptr l).
  Definition good (c : client) (R : nat -> nat -> heap -> Prop) (ans : nat -> out (list val)) (n : nat) (s : progress) (h : heap) : Prop :=
    match n with
    | O => s = nothing
    | S k => exists l, has s l /\ length (pr_seen s) = Nat.min k (length (calls c)) /\ R (length (pr_seen s)) l h /\ coll ans 0 (length (pr_seen s)) = Done (pr_seen s)
    end.
  Definition Inv (h0 : heap) (cs : list client) (cnt : nat -> nat) (ss : list progress) (h : heap) : Prop :=
    (grows h0 h /\ forall i s l, nth_error ss i = Some s -> has s l -> hget l h0 = None)
    /\ (forall i c, nth_error cs i = Some c -> exists s R ans, nth_error ss i = Some s /\ local c R ans /\ good c R ans (cnt i) s h)
    /\ (forall i j s t l, nth_error ss i = Some s -> nth_error ss j = Some t -> has s l -> has t l -> i = j).
  Lemma replace_same : forall A (l : list A) i x, (i < length l)%nat -> nth_error (replace_nth i x l) i = Some x.
  Proof. induction l as [|y l IH]; intros i x H; [cbn in H; lia|]. destruct i; [reflexivity|]. cbn in *. apply IH. lia. Qed.
  Lemma replace_other : forall A (l : list A) i j x, i <> j -> nth_error (replace_nth i x l) j = nth_error l j.
  Proof. induction l as [|y l IH]; intros i j x H; [destruct i; reflexivity|]. destruct i, j; cbn; try reflexivity; [lia|]. apply IH. lia. Qed.
  Lemma replace_cases : forall A (l : list A) i j x y, nth_error (replace_nth i x l) j = Some y -> (i = j /\ y = x) \/ (i <> j /\ nth_error l j = Some y).
  Proof.
    intros A l i j x y H. destruct (Nat.eq_dec i j) as [->|N]; [left|right].
    - split; [reflexivity|]. destruct (Nat.lt_ge_cases j (length l)) as [B|B]; [rewrite replace_same in H by exact B; congruence|].
      assert (LL : forall l i, length (replace_nth i x l) = length l). { clear. induction l; intros [|i]; cbn; auto. }
      assert (nth_error (replace_nth j x l) j = None) by (apply nth_error_None; rewrite LL; exact B). congruence.
    - split; [exact N|]. now rewrite replace_other in H.
  Qed.
  (** The others keep what they have. *)
  Lemma good_keep : forall c R ans n s h h', local c R ans -> good c R ans n s h ->
    (forall l, has s l -> forall l' x, (l' = l \/ ~ is_iter l' h) -> hget l' h = Some x -> hget l' h' = Some x) -> good c R ans n s h'.
  Proof.
    intros c R ans [|k] s h h' L G K; [exact G|]. destruct G as (l & G1 & G2 & G3 & G4). exists l. repeat split; try assumption. eapply (lo_keep _ _ _ L); [exact G3|]. exact (K l G1).
  Qed.
  Lemma good_iter : forall c R ans n s h l, local c R ans -> good c R ans n s h -> has s l -> is_iter l h.
  Proof.
    intros c R ans [|k] s h l L G H; [rewrite G in H; discriminate|]. destruct G as (l' & G1 & G2 & G3 & G4). unfold has in *. assert (l' = l) by congruence. subst l'. eapply (lo_iter _ _ _ L). exact G3.
  Qed.
  Definition up (cnt : nat -> nat) (i j : nat) : nat := if Nat.eq_dec i j then S (cnt j) else cnt j.
  (** One turn. *)
  Lemma turn_ok : forall h0 cs cnt ss h i c s, length ss = length cs -> Inv h0 cs cnt ss h -> nth_error cs i = Some c -> nth_error ss i = Some s ->
    (exists s' h', turn c s h = Done (s', h') /\ Inv h0 cs (up cnt i) (replace_nth i s' ss) h')
    \/ ((forall s' h', turn c s h <> Done (s', h')) /\ exists k, cnt i = S k /\ (k < length (calls c))%nat /\ forall m h1 l, (S k <= m)%nat -> alone c m h1 <> Done l).
  Proof.
    intros h0 cs cnt ss h i c s LEN ((I01 & I02) & I1 & I2) Ec Es. destruct (I1 i c Ec) as (s' & R & ans & Es' & L & G). assert (s' = s) by congruence. subst s'.
    assert (Bi : (i < length ss)%nat) by (apply nth_error_Some; congruence).
    assert (OTHER : forall s' h', good c R ans (S (cnt i)) s' h' -> 
       (forall j t l, i <> j -> nth_error ss j = Some t -> has t l -> ~ has s' l) ->
       (forall l' x, ~ has s l' -> hget l' h = Some x -> hget l' h' = Some x) -> (forall l, has s' l -> hget l h0 = None) -> Inv h0 cs (up cnt i) (replace_nth i s' ss) h').
    { intros s' h' G' FR F NEW. split; [|split].
      - split.
        + intros l x H. apply F; [|now apply I01]. intros Hs. rewrite (I02 _ _ _ Es Hs) in H. discriminate.
        + intros j t l Ej Hl. apply replace_cases in Ej. destruct Ej as [[_ ->]|[_ Ej]]; [now apply NEW|eapply I02; eassumption].
      - intros j d Ej. unfold up. destruct (Nat.eq_dec i j) as [<-|N].
        + exists s', R, ans. assert (d = c) by congruence. subst d. repeat split; try assumption; [now apply replace_same|apply L..].
        + destruct (I1 j d Ej) as (t & R' & ans' & Et & L' & Gt). exists t, R', ans'. split; [now rewrite replace_other|]. split; [exact L'|]. eapply good_keep; [exact L'|exact Gt|].
          intros l Hl l' x C H. apply F; [|exact H]. intros Hs. pose proof (good_iter _ _ _ _ _ _ _ L G Hs) as IS. destruct C as [->|C]; [|contradiction]. apply N. eapply I2; eassumption.
      - intros j k t t' l Ej Ek Hj Hk. apply replace_cases in Ej. apply replace_cases in Ek. destruct Ej as [[-> ->]|[Nj Ej]], Ek as [[-> ->]|[Nk Ek]]; try reflexivity.
        + exfalso. exact (FR _ _ _ Nk Ek Hk Hj).
        + exfalso. exact (FR _ _ _ Nj Ej Hj Hk).
        + eapply I2; eassumption. }
    destruct (cnt i) as [|k] eqn:CI.
    - left. cbn [good] in G. subst s. unfold SpecShare.turn. cbn [pr_it nothing]. destruct (lo_start _ _ _ L h) as (h' & E & H & GR). rewrite E. cbn [obind]. do 2 eexists. split; [reflexivity|].
        apply OTHER.
        * exists (length h). repeat split; try reflexivity; try exact H.
        * intros j t l N Et Ht Hs. unfold has in Hs. cbn in Hs. assert (l = length h) by congruence. subst l. 
          assert (Bj : (j < length cs)%nat) by (rewrite <- LEN; apply nth_error_Some; congruence). destruct (nth_error cs j) as [d|] eqn:Ed; [|apply nth_error_None in Ed; lia].
          destruct (I1 j d Ed) as (t' & R' & ans' & Et' & L' & Gt). assert (t' = t) by congruence. subst t'. destruct (good_iter _ _ _ _ _ _ _ L' Gt Ht) as (x & X). apply hget_bound in X. lia.
        * intros l' x _ X. now apply GR.
        * intros l Hs. unfold has in Hs. cbn in Hs. assert (l = length h) by congruence. subst l. destruct (hget (length h) h0) as [x|] eqn:X; [|reflexivity]. apply I01, hget_bound in X. lia.
    - destruct G as (l & Hl & G2 & G3 & G4). unfold SpecShare.turn. rewrite Hl. destruct (nth_error (calls c) (length (pr_seen s))) as [u|] eqn:Eu.
      + assert (B : (length (pr_seen s) < length (calls c))%nat) by (apply nth_error_Some; congruence). assert (K : length (pr_seen s) = k) by lia.
        pose proof (lo_call _ _ _ L _ l h u G3 Eu) as S. destruct (ans (length (pr_seen s))) as [vs| | |] eqn:A.
        * left. destruct S as (h' & E & H' & F). rewrite E. cbn [obind]. do 2 eexists. split; [reflexivity|].
             apply OTHER.
             ++ exists l. cbn [pr_it pr_seen has]. rewrite app_length, Nat.add_1_r. cbn [length]. repeat split; [|exact H'|].
                ** rewrite K. rewrite Nat.min_l by lia. reflexivity.
                ** rewrite coll_snoc, G4. cbn [obind Nat.add]. rewrite A. reflexivity.
             ++ intros j t l0 N Et Ht Hs. unfold has in Hs, Hl. cbn in Hs. assert (l0 = l) by congruence. subst l0. apply N. eapply I2; eassumption.
             ++ intros l' x N X. apply F; [|exact X]. intros ->. now apply N.
             ++ intros l0 Hs. unfold has in Hs, Hl. cbn in Hs. assert (l0 = l) by congruence. subst l0. eapply I02; eassumption.
        * right. rewrite S. split; [intros; discriminate|]. exists k. split; [reflexivity|]. split; [lia|]. intros m h1 l0 M E0. rewrite (alone_coll L) in E0. destruct (coll_less ans (Nat.min m (length (calls c))) 0 (Datatypes.S k) l0 ltac:(lia) E0) as (l1 & E1).
          rewrite coll_snoc in E1. rewrite <- K, G4 in E1. cbn [obind Nat.add] in E1. rewrite A in E1. discriminate.
        * right. rewrite S. split; [intros; discriminate|]. exists k. split; [reflexivity|]. split; [lia|]. intros m h1 l0 M E0. rewrite (alone_coll L) in E0. destruct (coll_less ans (Nat.min m (length (calls c))) 0 (Datatypes.S k) l0 ltac:(lia) E0) as (l1 & E1).
          rewrite coll_snoc in E1. rewrite <- K, G4 in E1. cbn [obind Nat.add] in E1. rewrite A in E1. discriminate.
        * right. rewrite S. split; [intros; discriminate|]. exists k. split; [reflexivity|]. split; [lia|]. intros m h1 l0 M E0. rewrite (alone_coll L) in E0. destruct (coll_less ans (Nat.min m (length (calls c))) 0 (Datatypes.S k) l0 ltac:(lia) E0) as (l1 & E1).
          rewrite coll_snoc in E1. rewrite <- K, G4 in E1. cbn [obind Nat.add] in E1. rewrite A in E1. discriminate.
      + left. apply nth_error_None in Eu. do 2 eexists. split; [reflexivity|].
          apply OTHER.
          -- exists l. repeat split; try assumption. lia.
          -- intros j t l0 N Et Ht Hs. apply N. eapply I2; eassumption.
          -- intros; assumption.
          -- intros l0 Hs. eapply I02; eassumption.
  Qed.
  Lemma replace_length : forall A (l : list A) i x, length (replace_nth i x l) = length l.
  Proof. induction l; intros [|i] x; cbn; auto. Qed.
  Lemma inv_ext : forall h0 cs cnt cnt' ss h, (forall i, cnt i = cnt' i) -> Inv h0 cs cnt ss h -> Inv h0 cs cnt' ss h.
  Proof. intros h0 cs cnt cnt' ss h E (I0 & I1 & I2). split; [exact I0|]. split; [|exact I2]. intros i c Ec. rewrite <- E. now apply I1. Qed.
  Lemma schedule_ok : forall h0 cs sched cnt ss h, length ss = length cs -> Inv h0 cs cnt ss h ->
    (forall ss' h', interleave cs sched ss h = Done (ss', h') -> Inv h0 cs (fun i => cnt i + turns i sched)%nat ss' h')
    /\ ((forall i c k, nth_error cs i = Some c -> (cnt i + turns i sched)%nat = S k -> exists h1 l, alone c k h1 = Done l) -> exists ss' h', interleave cs sched ss h = Done (ss', h')).
  Proof.
    intros h0 cs. induction sched as [|i sched IH]; intros cnt ss h LEN I.
    - cbn [SpecShare.interleave]. split; [|intros _; do 2 eexists; reflexivity]. intros ss' h' E. injection E as <- <-. eapply inv_ext; [|exact I]. intros i. cbn. lia.
    - cbn [SpecShare.interleave]. unfold turns in *. cbn [count_occ]. destruct (nth_error cs i) as [c|] eqn:Ec.
      + assert (B : (i < length ss)%nat) by (rewrite LEN; apply nth_error_Some; congruence). destruct (nth_error ss i) as [s|] eqn:Es; [|apply nth_error_None in Es; lia].
        destruct (turn_ok h0 cs cnt ss h i c s LEN I Ec Es) as [(s' & h' & E & I')|(NO & k & CK & BK & AL)].
        * rewrite E. cbn [obind]. destruct (IH (up cnt i) (replace_nth i s' ss) h' ltac:(rewrite replace_length; exact LEN) I') as [A1 A2]. split.
          -- intros ss2 h2 E2. eapply inv_ext; [|exact (A1 _ _ E2)]. intros j. unfold up. cbn beta. destruct (Nat.eq_dec i j); lia.
          -- intros P. apply A2. intros j d k Ej Ek. apply (P j d k Ej). rewrite <- Ek. unfold up. destruct (Nat.eq_dec i j); lia.
        * split.
          -- intros ss' h' E. destruct (turn c s h) as [[s2 h2]| | |]; try discriminate. exfalso. exact (NO _ _ eq_refl).
          -- intros P. destruct (Nat.eq_dec i i) as [_|]; [|congruence]. exfalso. specialize (P i c (S k + count_occ Nat.eq_dec sched i)%nat Ec). destruct (Nat.eq_dec i i); [|congruence].
             destruct P as (h1 & l & P); [lia|]. eapply AL; [|exact P]. lia.
      + destruct (IH cnt ss h LEN I) as [A1 A2]. split.
        * intros ss2 h2 E2. destruct (A1 _ _ E2) as (J0 & J1 & J2). split; [exact J0|]. split; [|exact J2]. intros j d Ej. destruct (Nat.eq_dec i j); [congruence|]. now apply J1.
        * intros P. apply A2. intros j d k Ej Ek. apply (P j d k Ej). destruct (Nat.eq_dec i j); [congruence|exact Ek].
  Qed.
  Lemma all_ok : forall cs sched h, Forall (fun c => exists R ans, local c R ans) cs ->
    let run := interleave cs sched (map (fun _ => nothing) cs) h in
    (forall ss h', run = Done (ss, h') -> grows h h' /\ forall i c, nth_error cs i = Some c -> exists s, nth_error ss i = Some s
        /\ match turns i sched with O => s = nothing | S k => forall h0, alone c k h0 = Done (pr_seen s) end)
    /\ ((forall i c k, nth_error cs i = Some c -> turns i sched = S k -> exists h0 l, alone c k h0 = Done l) -> exists ss h', run = Done (ss, h')).
  Proof.
    intros cs sched h F run. destruct (schedule_ok h cs sched (fun _ => 0%nat) (map (fun _ => nothing) cs) h (map_length _ _)) as [A1 A2].
    - assert (NT : forall i s, nth_error (map (fun _ : client => nothing) cs) i = Some s -> s = nothing). { intros i s E. rewrite nth_error_map in E. destruct (nth_error cs i); cbn in E; congruence. }
      split; [|split].
      + split; [intros l x H; exact H|]. intros i s l E H. rewrite (NT _ _ E) in H. discriminate.
      + intros i c E. rewrite Forall_forall in F. destruct (F c (nth_error_In _ _ E)) as (R & ans & L). exists nothing, R, ans. split; [rewrite nth_error_map, E; reflexivity|]. split; [exact L|reflexivity].
      + intros i j s t l E _ H. rewrite (NT _ _ E) in H. discriminate.
    - split; [|exact A2]. intros ss h' E. destruct (A1 _ _ E) as ((J0 & _) & J1 & _). split; [exact J0|]. intros i c Ec. destruct (J1 i c Ec) as (s & R & ans & Es & L & G). exists s. split; [exact Es|].
      cbn [Nat.add] in G. destruct (turns i sched) as [|k]; [exact G|]. destruct G as (l & _ & G2 & _ & G4). intros h0. rewrite (alone_coll L), <- G2. exact G4.
  Qed.
End One.
