(** Goroutines that share only what none of them writes take the steps they would take alone. *)
From Coq Require Import String.
From Verif Require Import Base Trie Utf8 GoSyntax GoSem GoFacts SpecSteps StepsRun StepsRel.
Local Open Scope string_scope.
Local Open Scope list_scope.

Lemma hget_hset_other : forall h l l' o, l <> l' -> hget l' (hset l o h) = hget l' h.
Proof. unfold hget. induction h as [|x h IH]; intros [|l] [|l'] o N; cbn; try reflexivity; try congruence. apply IH. congruence. Qed.
Lemma steps_snoc : forall A n (t : act A) h, steps (S n) t h = let (t, h) := steps n t h in step t h.
Proof.
  intros A. induction n as [|n IH]; intros t h.
  - cbn [steps]. destruct (step t h); reflexivity.
  - change (steps (S (S n)) t h) with (let (t1, h1) := step t h in steps (S n) t1 h1). destruct (step t h) as [t1 h1] eqn:E. rewrite IH. cbn [steps]. rewrite E. reflexivity.
Qed.
Lemma shape_rel : forall m (w : world), (forall a b, w a b -> Nat.min a m = Nat.min b m) -> forall v v', vrel w v v' -> shape m v = shape m v'.
Proof.
  intros m w M. apply (val_all (fun v => forall v', vrel w v v' -> shape m v = shape m v')).
  - intros n fs IH v' H. apply vrel_struct in H. destruct H as (fs' & -> & H). cbn [shape]. f_equal. revert fs' H. induction IH as [|[x v] fs Hv _ IH]; intros [|[x' v'] fs'] H; try contradiction; [reflexivity|].
    cbn in H. destruct H as (-> & H1 & H2). cbn. f_equal; [f_equal; now apply Hv|now apply IH].
  - intros r x IH v' (r' & -> & H). cbn [shape]. f_equal. now apply IH.
  - intros v. destruct v as [t z|b|o b|rs|n [l|]|n l|n fs|f|r m0|f| |e|s|t a|s]; try exact I; intros v' H; try (cbn in H; subst v'; reflexivity); destruct H as (l' & -> & H); cbn; now rewrite (M _ _ H).
Qed.
Lemma shapes_rel : forall m (w : world), (forall a b, w a b -> Nat.min a m = Nat.min b m) -> forall vs vs', vsrel w vs vs' -> shapes m vs = shapes m vs'.
Proof. intros m w M vs vs' H. induction H as [|v v' vs vs' V H IH]; [reflexivity|]. cbn. f_equal; [now apply (shape_rel m w M)|exact IH]. Qed.
Lemma object_rel : forall m (w : world), (forall a b, w a b -> Nat.min a m = Nat.min b m) -> forall o o', orel w o o' -> object_shape m o = object_shape m o'.
Proof.
  intros m w M [n fs] [n' fs'] [H1 H2]. unfold object_shape. cbn [fst snd] in *. f_equal; [exact H1|]. revert fs' H2. induction fs as [|[x v] fs IH]; intros [|[x' v'] fs'] H; try contradiction; [reflexivity|].
  cbn in *. destruct H as (-> & A & B). f_equal; [f_equal; now apply (shape_rel m w M)|now apply IH].
Qed.
Lemma nth_set : forall A i j (x : A) l, nth_error (set_nth i x l) j = if Nat.eqb i j then option_map (fun _ => x) (nth_error l j) else nth_error l j.
Proof. intros A. induction i as [|i IH]; intros [|j] x [|y l]; try reflexivity; cbn; [destruct (Nat.eqb i j); reflexivity|apply IH]. Qed.

Section Sim.
  Variable A : Type.
  Variable R : world -> A -> A -> Prop.
  Variable W : string -> bool.
  Variable S : nat -> bool.
  Variable owns : nat -> nat -> bool.
  Variable h0 : heap.
  Variable ts0 : list (act A).
  Hypothesis HS : constant S W h0.
  Hypothesis HO : parted S owns h0.
  Definition home (i : nat) : world := fun a b => a = b /\ S a || owns i a = true.
  Hypothesis HT : forall i t, nth_error ts0 i = Some t -> trel W R (home i) t t.

  (** Goroutine [i] with memory [g] alone and [h] together. *)
  Record good (i : nat) (w : world) (g h : heap) : Prop := {
    g_home : more (home i) w;
    g_fun : forall a b c, w a b -> w a c -> b = c;
    g_inj : forall a b c, w a c -> w b c -> a = b;
    g_obj : forall a b, w a b -> exists o o', hget a g = Some o /\ hget b h = Some o' /\ orel w o o';
    g_old : forall a b, w a b -> (a = b /\ S a || owns i a = true) \/ (length h0 <= a /\ length h0 <= b)%nat;
    g_const : forall l, S l = true -> hget l g = hget l h0;
    g_len : (length h0 <= length g)%nat
  }.
  Definition far (wi wj : world) : Prop := forall a b c, wi a b -> wj c b -> S b = true.
  Definition Inv (n : nat -> nat) (ts : list (act A)) (h : heap) : Prop :=
    (length h0 <= length h)%nat /\ (forall l, S l = true -> hget l h = hget l h0) /\ (forall l, (l < length h0)%nat -> (forall i, owns i l = false) -> hget l h = hget l h0) /\
    length ts = length ts0 /\
    exists ws : nat -> world, (forall i j, i <> j -> far (ws i) (ws j)) /\
    forall i t0, nth_error ts0 i = Some t0 -> exists t g t', steps (n i) t0 h0 = (t, g) /\ nth_error ts i = Some t' /\ trel W R (ws i) t t' /\ good i (ws i) g h.

  Lemma S_bound : forall l, S l = true -> (l < length h0)%nat.
  Proof. intros l H. destruct (HS l H) as (n & fs & E & _). eapply hget_bound. exact E. Qed.
  Lemma home_bound : forall i l, S l || owns i l = true -> (l < length h0)%nat.
  Proof. intros i l H. apply Bool.orb_prop in H. destruct H as [H|H]; [now apply S_bound|]. destruct (HO i l H) as (_ & _ & n & fs & E & _). eapply hget_bound. exact E. Qed.
  Lemma home_good : forall i, good i (home i) h0 h0.
  Proof.
    intros i. split.
    - apply more_refl.
    - intros a b c [-> _] [-> _]. reflexivity.
    - intros a b c [-> _] [-> _]. reflexivity.
    - intros a b [<- K]. assert (X : exists n fs, hget a h0 = Some (n, fs) /\ Forall (fun q => within (fun k => S k || owns i k) (snd q) = true) fs).
      { apply Bool.orb_prop in K. destruct K as [K|K].
        - destruct (HS a K) as (n & fs & E & F). exists n, fs. split; [exact E|]. eapply Forall_impl; [|exact F]. intros [x v] [_ V]. cbn in *.
          clear - V. revert v V. apply (val_all (fun v => within S v = true -> within (fun k => S k || owns i k) v = true)).
          + intros n fs IH H. cbn [within] in *. induction IH as [|q fs Hq _ IH]; [reflexivity|]. cbn in *. apply andb_prop in H. apply andb_true_intro. split; [apply Hq; tauto|apply IH; tauto].
          + intros r m IH H. cbn in *. auto.
          + intros v. destruct v as [| | | |n [l|]|n l| | | | | | | | |]; try exact I; intros H; try exact H; cbn in *; rewrite H; reflexivity.
        - destruct (HO i a K) as (_ & _ & n & fs & E & F). exists n, fs. split; [exact E|exact F]. }
      destruct X as (n & fs & E & F). exists (n, fs), (n, fs). repeat split; try exact E. cbn. clear E K. induction F as [|[x v] fs V _ IH]; [exact I|]. cbn in *. repeat split; [|exact IH].
      apply (within_rel (fun k => S k || owns i k)); [|exact V]. intros l L. split; [reflexivity|exact L].
    - intros a b [-> K]. left. split; [reflexivity|exact K].
    - reflexivity.
    - lia.
  Qed.
  Lemma init : Inv (fun _ => 0%nat) ts0 h0.
  Proof.
    split; [lia|]. split; [reflexivity|]. split; [reflexivity|]. split; [reflexivity|]. exists home. split.
    - intros i j N a b c [-> K] [-> K']. destruct (S b) eqn:E; [reflexivity|]. cbn in K, K'. destruct (HO j b K') as (_ & U & _). destruct N. now apply U.
    - intros i t0 H. exists t0, h0, t0. split; [reflexivity|]. split; [exact H|]. split; [now apply HT|apply home_good].
  Qed.
  (** A write to what goroutine [i] knows is none to what the others know. *)
  Lemma orel_more : forall w w', more w w' -> forall o o', orel w o o' -> orel w' o o'.
  Proof. intros w w' M o o' [H1 H2]. split; [exact H1|]. eapply frel_more; eassumption. Qed.
  (** Whoever sees the same at the addresses they know is as well off as before. *)
  Lemma good_other : forall i w g h h', (forall b, (exists a, w a b) -> hget b h' = hget b h) -> good i w g h -> good i w g h'.
  Proof.
    intros i w g h h' E [H1 H2 H3 H4 H5 H6 H7]. split; auto. intros a b K. destruct (H4 a b K) as (o & o' & X & Y & Z). exists o, o'. repeat split; try assumption; [rewrite E; [exact Y|now exists a]|apply Z|apply Z].
  Qed.
  Definition bump (i : nat) (n : nat -> nat) : nat -> nat := fun j => if Nat.eqb i j then Datatypes.S (n j) else n j.
  Definition update (i : nat) (w : world) (ws : nat -> world) : nat -> world := fun j => if Nat.eqb i j then w else ws j.
  (** One step of one goroutine, on both sides. *)
  Lemma step_good : forall i w t t' g h, trel W R w t t' -> good i w g h -> (length h0 <= length h)%nat -> (forall l, S l = true -> hget l h = hget l h0) ->
    exists w', more w w' /\ trel W R w' (fst (step t g)) (fst (step t' h)) /\ good i w' (snd (step t g)) (snd (step t' h))
    /\ (forall a b, w' a b -> w a b \/ b = length h)
    /\ (length h <= length (snd (step t' h)))%nat
    /\ (forall l, l <> length h -> S l = true \/ ~ (exists a, w a l) -> hget l (snd (step t' h)) = hget l h).
  Proof.
    intros i w t t' g h T Gd LH SH. pose proof Gd as [H1 H2 H3 H4 H5 H6 H7].
    assert (SAME : forall (u u' : act A), trel W R w u u' -> exists w', more w w' /\ trel W R w' (fst (u, g)) (fst (u', h)) /\ good i w' (snd (u, g)) (snd (u', h)) /\ (forall a b, w' a b -> w a b \/ b = length h)
      /\ (length h <= length (snd (u', h)))%nat /\ (forall l, l <> length h -> S l = true \/ ~ (exists a, w a l) -> hget l (snd (u', h)) = hget l h)).
    { intros u u' U. exists w. cbn [fst snd]. split; [apply more_refl|]. split; [exact U|]. split; [exact Gd|]. split; [auto|]. split; [lia|]. reflexivity. }
    destruct T as [w a a' V|w s|w l l' x k k' L K|w l l' k k' L K|w l l' x v v' k k' L X V K|w o o' k k' O K]; cbn [step].
    - apply SAME. now constructor.
    - apply SAME. constructor.
    - destruct (H4 l l' L) as ([n fs] & [n' fs'] & E & E' & N & F). rewrite E, E'. cbn in N, F. pose proof (assoc_rel w x fs fs' F) as Q.
      destruct (assoc x fs), (assoc x fs'); try contradiction; apply SAME; [now apply K|constructor].
    - destruct (H4 l l' L) as ([n fs] & [n' fs'] & E & E' & N & F). rewrite E, E'. apply SAME. now apply K.
    - destruct (H4 l l' L) as ([n fs] & [n' fs'] & E & E' & N & F). rewrite E, E'. cbn in N, F. subst n'. pose proof (assoc_rel w x fs fs' F) as Q.
      destruct (assoc x fs) as [u|] eqn:EX, (assoc x fs') as [u'|] eqn:EX'; try contradiction; [|apply SAME; constructor].
      assert (NS : S l = false).
      { destruct (S l) eqn:ES; [|reflexivity]. rewrite (H6 l ES) in E. destruct (HS l ES) as (m & fs2 & E2 & F2). rewrite E in E2. injection E2 as <- <-. exfalso. clear - EX F2 X.
        induction F2 as [|[y z] fs [F1 _] _ IH]; [discriminate|]. cbn in *. destruct (String.eqb x y) eqn:Y; [apply String.eqb_eq in Y; subst y; congruence|now apply IH]. }
      assert (NS' : S l' = false).
      { destruct (S l') eqn:ES; [|reflexivity]. assert (w l' l') as L2. { apply H1. split; [reflexivity|]. rewrite ES. reflexivity. } rewrite (H3 l l' l' L L2) in NS. congruence. }
      assert (B : (l < length g)%nat) by (eapply hget_bound; exact E). assert (B' : (l' < length h)%nat) by (eapply hget_bound; exact E').
      exists w. cbn [fst snd]. split; [apply more_refl|]. split; [exact K|]. split; [|split; [auto|split; [rewrite hset_length; lia|]]].
      + split; auto.
        * intros a b AB. destruct (Nat.eq_dec a l) as [->|NE].
          -- rewrite (H2 l b l' AB L) in *. exists (n, put x (like u v) fs), (n, put x (like u' v') fs'). rewrite !hget_hset by assumption. repeat split. cbn. apply put_rel; [now apply like_rel|exact F].
          -- assert (NE' : b <> l'). { intros ->. apply NE. now apply (H3 a l l'). } rewrite !hget_hset_other by congruence. now apply H4.
        * intros y Y. rewrite hget_hset_other by congruence. now apply H6.
        * rewrite hset_length. exact H7.
      + intros y Y Z. apply hget_hset_other. intros <-. destruct Z as [Z|Z]; [congruence|]. apply Z. now exists l.
    - exists (ext w (length g) (length h)). cbn [fst snd]. 
      assert (BG : forall a b, w a b -> (a < length g /\ b < length h)%nat). { intros a b AB. destruct (H4 a b AB) as (x & x' & E & E' & _). split; eapply hget_bound; eassumption. }
      split; [apply ext_more|]. split; [apply K|]. split; [|split; [|split]].
      + split.
        * eapply more_trans; [exact H1|apply ext_more].
        * intros a b c [AB|[-> ->]] [AC|[E ->]]; [now apply (H2 a)| | |reflexivity]; [subst a; apply BG in AB; lia|apply BG in AC; lia].
        * intros a b c [AB|[-> ->]] [AC|[-> E]]; [now apply (H3 a b c)| | |reflexivity]; [subst c; apply BG in AB; lia|apply BG in AC; lia].
        * intros a b [AB|[-> ->]].
          -- destruct (H4 a b AB) as (x & x' & E & E' & Q). exists x, x'. apply BG in AB. unfold alloc. rewrite !hget_app by lia. repeat split; try assumption; [apply Q|]. eapply orel_more; [apply ext_more|exact Q].
          -- exists o, o'. rewrite !hget_new. repeat split; [apply O|]. eapply orel_more; [apply ext_more|exact O].
        * intros a b [AB|[-> ->]]; [now apply H5|]. right. lia.
        * intros y Y. pose proof (S_bound y Y). unfold alloc. rewrite hget_app by lia. now apply H6.
        * unfold alloc. rewrite app_length. lia.
      + intros a b [AB|[-> ->]]; auto.
      + unfold alloc. rewrite app_length. lia.
      + intros y Y _. unfold hget, alloc. destruct (Nat.lt_total y (length h)) as [Q|[Q|Q]]; [now apply nth_error_app1|contradiction|].
        rewrite (proj2 (nth_error_None (h ++ [o']) y)), (proj2 (nth_error_None h y)); [reflexivity|lia|rewrite app_length; cbn; lia].
  Qed.
  Lemma step_inv : forall n ts h i t, Inv n ts h -> nth_error ts i = Some t -> Inv (bump i n) (set_nth i (fst (step t h)) ts) (snd (step t h)).
  Proof.
    intros n ts h i t' (LH & SH & UH & LN & ws & FAR & EACH) E.
    assert (exists t0, nth_error ts0 i = Some t0) as [t0 E0]. { destruct (nth_error ts0 i) as [t0|] eqn:Q; [now exists t0|]. apply nth_error_None in Q. assert (nth_error ts i <> None) as X by congruence. apply nth_error_Some in X. lia. }
    destruct (EACH i t0 E0) as (t & g & t1 & ST & E1 & T & Gd). rewrite E in E1. injection E1 as <-.
    destruct (step_good i (ws i) t t' g h T Gd LH SH) as (w' & M & T' & G' & NEW & LEN & CH).
    assert (BND : forall j u a b, nth_error ts0 j = Some u -> ws j a b -> (b < length h)%nat).
    { intros j u a b EJ AB. destruct (EACH j u EJ) as (_ & gj & _ & _ & _ & _ & Gj). destruct (g_obj _ _ _ _ Gj a b AB) as (o & o' & _ & X & _). eapply hget_bound. exact X. }
    split; [lia|]. split; [|split; [|split]].
    - intros l L. rewrite CH; [now apply SH| |now left]. pose proof (S_bound l L). lia.
    - intros l L N. rewrite CH; [now apply UH|lia|]. destruct (S l) eqn:ES; [now left|]. right. intros [a AB]. destruct (g_old _ _ _ _ Gd a l AB) as [[-> K]|[_ K]]; [|lia]. rewrite ES, (N i) in K. discriminate.
    - rewrite <- LN. clear. revert i. induction ts as [|y ts IH]; intros [|i]; cbn; congruence.
    - exists (update i w' (fun j => match nth_error ts0 j with Some _ => ws j | None => fun _ _ => False end)). split.
      + intros j k N a b c. unfold update. destruct (Nat.eqb i j) eqn:EJ, (Nat.eqb i k) eqn:EK; try apply Nat.eqb_eq in EJ; try apply Nat.eqb_eq in EK; try congruence; try subst j; try subst k.
        * destruct (nth_error ts0 k) as [u|] eqn:EU; [|contradiction]. intros AB CB. pose proof (BND k u c b EU CB). destruct (NEW a b AB) as [X|X]; [|lia]. exact (FAR i k N a b c X CB).
        * destruct (nth_error ts0 j) as [u|] eqn:EU; [|contradiction]. intros AB CB. pose proof (BND j u a b EU AB). destruct (NEW c b CB) as [X|X]; [|lia]. exact (FAR j i N a b c AB X).
        * destruct (nth_error ts0 j), (nth_error ts0 k); try contradiction. now apply FAR.
      + intros j u EU. destruct (Nat.eq_dec i j) as [->|N].
        * rewrite E0 in EU. injection EU as <-. exists (fst (step t g)), (snd (step t g)), (fst (step t' h)). unfold bump, update. rewrite Nat.eqb_refl. split; [|split; [|split; assumption]].
          -- rewrite steps_snoc, ST. destruct (step t g); reflexivity.
          -- rewrite nth_set, Nat.eqb_refl, E. reflexivity.
        * destruct (EACH j u EU) as (tj & gj & tj' & SJ & EJ & TJ & GJ). exists tj, gj, tj'. unfold bump, update. apply Nat.eqb_neq in N. rewrite N, EU. split; [exact SJ|]. split; [rewrite nth_set, N; exact EJ|]. split; [exact TJ|].
          apply (good_other j (ws j) gj h); [|exact GJ]. intros b [a AB]. apply CH; [pose proof (BND j u a b EU AB); lia|].
          destruct (S b) eqn:ES; [now left|]. right. intros [c CB]. apply Nat.eqb_neq in N. rewrite (FAR i j N c b a CB AB) in ES. discriminate.
  Qed.
  Lemma together_inv : forall sched n ts h, Inv n ts h -> Inv (fun i => (n i + turns i sched)%nat) (fst (together sched ts h)) (snd (together sched ts h)).
  Proof.
    assert (EXT : forall n n' ts h, (forall i, n i = n' i) -> Inv n ts h -> Inv n' ts h).
    { intros n n' ts h E (A1 & A2 & A3 & A4 & ws & A5 & A6). repeat (split; [assumption|]). exists ws. split; [exact A5|]. intros i t0 H. rewrite <- E. now apply A6. }
    induction sched as [|i sched IH]; intros n ts h H; cbn [together].
    - cbn [fst snd]. apply (EXT n); [|exact H]. intros i. cbn. lia.
    - destruct (nth_error ts i) as [t|] eqn:E.
      + pose proof (step_inv n ts h i t H E) as H1. destruct (step t h) as [t1 h1]. cbn [fst snd] in H1. apply IH in H1. eapply EXT; [|exact H1]. intros j. cbn. unfold bump, turns. cbn [count_occ]. destruct (Nat.eq_dec i j) as [->|N]; [rewrite Nat.eqb_refl; lia|].
        apply Nat.eqb_neq in N. rewrite N. reflexivity.
      + apply IH in H as H1. destruct H1 as (A1 & A2 & A3 & A4 & ws & A5 & A6). repeat (split; [assumption|]). exists ws. split; [exact A5|]. intros j t0 EJ. unfold turns. cbn [count_occ]. destruct (Nat.eq_dec i j) as [->|N]; [|now apply A6].
        exfalso. apply nth_error_None in E. assert (nth_error ts0 j <> None) as X by congruence. apply nth_error_Some in X. destruct H as (_ & _ & _ & LN & _). lia.
  Qed.
  (** Two accesses to one struct, one of them a write. *)
  Lemma access_known : forall w t t' h l b, trel W R w t t' -> access t' h = Some (l, b) -> exists a, w a l.
  Proof. intros w t t' h l b T E. destruct T; cbn in E; try discriminate; injection E as <- _; eexists; eassumption. Qed.
  Lemma access_shared : forall w t t' h l b, trel W R w t t' -> (forall l, S l = true -> hget l h = hget l h0) -> S l = true -> access t' h = Some (l, b) -> b = false.
  Proof.
    intros w t t' h l b T SH SL E. destruct T; cbn in E; try discriminate; injection E as <- <-; try reflexivity. rewrite (SH _ SL). destruct (HS _ SL) as (m & fs & E2 & F2). rewrite E2. unfold has.
    destruct (assoc x fs) as [z|] eqn:EX; [|reflexivity]. exfalso. match goal with X : W x = true |- _ => rename X into WX end. clear - EX F2 WX.
    induction F2 as [|[y u] fs [F1 _] _ IH]; [discriminate|]. cbn in *. destruct (String.eqb x y) eqn:Y; [apply String.eqb_eq in Y; subst y; congruence|now apply IH].
  Qed.
  Theorem sim : forall same : nat -> A -> A -> Prop, (forall w : world, (forall a b, w a b -> Nat.min a (length h0) = Nat.min b (length h0)) -> forall a a', R w a a' -> same (length h0) a' a) -> independent same owns ts0 h0.
  Proof.
    intros same SM sched. pose proof (together_inv sched _ _ _ init) as H. destruct (together sched ts0 h0) as [ts h]. cbn [fst snd] in H. destruct H as (LH & SH & UH & LN & ws & FAR & EACH). split; [|split; [|exact UH]].
    - intros i t0 E. destruct (EACH i t0 E) as (t & g & t' & ST & E1 & T & Gd). cbn in ST. rewrite ST. exists t'. cbn [fst snd].
      assert (MN : forall a b, ws i a b -> Nat.min a (length h0) = Nat.min b (length h0)). { intros a b AB. destruct (g_old _ _ _ _ Gd a b AB) as [[-> _]|[X Y]]; [reflexivity|]. lia. }
      split; [exact E1|]. split.
      + destruct T; cbn; try exact I; [|reflexivity]. eapply SM; [|eassumption]. exact MN.
      + intros l L. assert (LL : ws i l l). { apply (g_home _ _ _ _ Gd). split; [reflexivity|]. rewrite L. apply Bool.orb_true_r. }
        destruct (g_obj _ _ _ _ Gd l l LL) as (o & o' & X & Y & Z). rewrite X, Y. cbn. f_equal. symmetry. exact (object_rel _ _ MN o o' Z).
    - intros (i & j & t & u & l & a & b & N & EI & EJ & AI & AJ & AB).
      assert (forall k v, nth_error ts k = Some v -> exists t0, nth_error ts0 k = Some t0) as Q.
      { intros k v E. destruct (nth_error ts0 k) as [t0|] eqn:EK; [now exists t0|]. apply nth_error_None in EK. assert (nth_error ts k <> None) as X by congruence. apply nth_error_Some in X. lia. }
      destruct (Q i t EI) as [t0 E0]. destruct (Q j u EJ) as [u0 F0]. destruct (EACH i t0 E0) as (ti & gi & ti' & _ & E1 & TI & _). destruct (EACH j u0 F0) as (tj & gj & tj' & _ & F1 & TJ & _).
      rewrite EI in E1. injection E1 as <-. rewrite EJ in F1. injection F1 as <-. destruct (access_known _ _ _ _ _ _ TI AI) as [c C]. destruct (access_known _ _ _ _ _ _ TJ AJ) as [d D].
      pose proof (FAR i j N c l d C D) as SL. rewrite (access_shared _ _ _ _ _ _ TI SH SL AI), (access_shared _ _ _ _ _ _ TJ SH SL AJ) in AB. discriminate.
  Qed.
End Sim.
