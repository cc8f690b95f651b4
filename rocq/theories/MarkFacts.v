(** Marks after characters: patterns, removal of ignored characters, segmentations. *)
From Verif Require Import Base ListFacts SpecRules HangulFacts.

Lemma star_one : forall r p, one r p -> forall w, matches (Star r) w <-> Forall (fun c => p c = true) w.
Proof.
  intros r p O w. split.
  - intros M. remember (Star r) as s. induction M; try discriminate; [constructor|]. injection Heqs as ->. apply O in M1. destruct M1 as (c & -> & H). constructor; auto.
  - intros F. induction F as [|c w H F IH]; [apply m_star0|]. change (c :: w) with ([c] ++ w). apply m_star1; [apply O; eauto|exact IH].
Qed.

Section Marks.
  Variables mark takes : N -> Prop.
  (** A character with its marks. *)
  Notation elem := (N * list N)%type.
  Definition ok (e : elem) : Prop := (snd e = [] \/ takes (fst e)) /\ Forall mark (snd e).
  Definition B (t : list elem) : text := map fst t.
  Definition new (e : elem) : text := fst e :: snd e.
  Definition D (t : list elem) : text := flat_map new t.
  Lemma B_app : forall a b, B (a ++ b) = B a ++ B b. Proof. intros. apply map_app. Qed.
  Lemma D_app' : forall a b, D (a ++ b) = D a ++ D b. Proof. intros. apply flat_map_app. Qed.
  Lemma D_cons : forall e b, D (e :: b) = fst e :: snd e ++ D b. Proof. reflexivity. Qed.
  Lemma D_last : forall b e, D (b ++ [e]) = D b ++ fst e :: snd e.
  Proof. intros b e. rewrite D_app', D_cons. cbn. rewrite app_nil_r. reflexivity. Qed.
  Lemma B_split : forall t x y, B t = x ++ y -> exists e f, t = e ++ f /\ B e = x /\ B f = y.
  Proof. intros t x y E. apply map_eq_app in E. destruct E as (e & f & -> & <- & <-). eauto. Qed.
  Lemma B_split1 : forall t x c y, B t = x ++ c :: y -> exists e ms f, t = e ++ (c, ms) :: f /\ B e = x /\ B f = y.
  Proof. intros t x c y E. apply B_split in E. destruct E as (e & f & -> & <- & E). destruct f as [|(c', ms) f]; [discriminate|]. injection E as -> <-. eauto 7. Qed.
  Lemma no_marks : forall t, Forall ok t -> Forall (fun c => ~ takes c) (B t) -> D t = B t.
  Proof.
    intros t F G. induction t as [|(c, ms) t IH]; [reflexivity|]. cbn [B map] in G. rewrite D_cons. cbn [fst snd]. destruct (Forall_inv F) as ([E|E] & _); cbn in E; [|destruct (Forall_inv G E)].
    rewrite E, (IH (Forall_inv_tail F) (Forall_inv_tail G)). reflexivity.
  Qed.
  Lemma no_marks' : forall t, Forall ok t -> Forall (fun c => ~ takes c) (D t) -> D t = B t.
  Proof.
    intros t F G. apply no_marks; [exact F|]. clear F. induction t as [|e t IH]; [constructor|]. rewrite D_cons in G. constructor; [exact (Forall_inv G)|]. apply IH. apply Forall_inv_tail in G. apply Forall_app in G. apply G.
  Qed.
  (** Where a character comes from. *)
  Lemma D_split : forall b x y z, Forall ok b -> D b = x ++ y :: z -> (exists e0 ms e1, b = e0 ++ (y, ms) :: e1 /\ x = D e0 /\ z = ms ++ D e1) \/ mark y.
  Proof.
    induction b as [|(c, ms) b IH]; intros x y z F E; [destruct x; discriminate|]. rewrite D_cons in E. cbn [fst snd] in E. destruct x as [|x0 x].
    - cbn in E. injection E as -> <-. left. exists [], ms, b. auto.
    - cbn in E. injection E as -> E. apply app_eq_app in E. destruct E as (l & [(E1 & E2)|(E1 & E2)]).
      + destruct l as [|l0 l].
        * rewrite app_nil_r in E1. cbn in E2. destruct (IH [] y z (Forall_inv_tail F) (eq_sym E2)) as [(e0 & ms' & e1 & -> & E3 & ->)|M]; [left|right; exact M].
          exists ((x0, ms) :: e0), ms', e1. rewrite D_cons, <- E3, app_nil_r. cbn [fst snd app]. rewrite E1. auto.
        * cbn in E2. injection E2 as -> E2. right. destruct (Forall_inv F) as (_ & G). cbn in G. rewrite E1 in G. apply Forall_app in G. destruct G as (_ & G). exact (Forall_inv G).
      + destruct (IH l y z (Forall_inv_tail F) E2) as [(e0 & ms' & e1 & -> & -> & ->)|M]; [left|right; exact M]. exists ((x0, ms) :: e0), ms', e1. rewrite D_cons. cbn [fst snd app]. rewrite E1. auto.
  Qed.
  Lemma last_cases : forall b e, ok e -> (snd e = [] /\ D (b ++ [e]) = D b ++ [fst e]) \/ (takes (fst e) /\ exists l m, mark m /\ D (b ++ [e]) = l ++ [m]).
  Proof.
    intros b (c, ms) (H & F). rewrite D_last. cbn [fst snd] in *. destruct ms as [|m ms] using rev_ind; [left; auto|]. clear IHms. right. destruct H as [H|H]; [destruct ms; discriminate|].
    split; [exact H|]. exists (D b ++ c :: ms), m. apply Forall_app in F. destruct F as (_ & F). split; [exact (Forall_inv F)|]. rewrite <- app_assoc. reflexivity.
  Qed.
  Definition hard (c : N) : Prop := ~ mark c /\ ~ takes c.
  Lemma D_hard_end : forall w x b, Forall hard w -> Forall ok b -> D b = x ++ w -> exists e0 e1, b = e0 ++ e1 /\ D e0 = x /\ D e1 = w /\ B e1 = w.
  Proof.
    induction w as [|c w IH] using rev_ind; intros x b F G E; [rewrite app_nil_r in E; exists b, []; rewrite app_nil_r; auto|].
    apply Forall_app in F. destruct F as (Fw & Fc). apply Forall_inv in Fc. destruct b as [|e b] using rev_ind; [destruct x; [destruct w|]; discriminate|]. clear IHb.
    apply Forall_app in G. destruct G as (Gb & Ge). apply Forall_inv in Ge. destruct (last_cases b e Ge) as [(E1 & E2)|(_ & l & m & M & E2)]; rewrite E2, ?app_assoc in E; apply app_inj_tail in E; destruct E as (E & Ec).
    - destruct (IH x b Fw Gb E) as (e0 & e1 & -> & E3 & E4 & E5). exists e0, (e1 ++ [e]). rewrite app_assoc, D_last, B_app, E4, E5, E1. cbn [B map]. rewrite Ec. auto.
    - subst m. destruct Fc as (Fc & _). contradiction.
  Qed.

  Definition lokm (r : re) : Prop := forall b, Forall ok b -> ends_with r (B b) <-> ends_with r (D b).
  Definition rokm (r : re) : Prop := forall a, Forall ok a -> starts_with r (B a) <-> starts_with r (D a).
  Lemma lokm_eps : lokm Eps.
  Proof. intros b _. split; intros _; [exists (D b)|exists (B b)]; exists []; rewrite app_nil_r; split; auto; constructor. Qed.
  Lemma rokm_eps : rokm Eps.
  Proof. intros a _. split; intros _; exists []; [exists (D a)|exists (B a)]; split; auto; constructor. Qed.
  Lemma rokm_one : forall r p, one r p -> rokm r.
  Proof. intros r p O a _. destruct a as [|e a]; [reflexivity|]. rewrite D_cons. cbn [B map]. rewrite !(starts_one r p O). reflexivity. Qed.
  Lemma lokm_one : forall r p, one r p -> (forall c, takes c -> p c = false) -> (forall c, mark c -> p c = false) -> lokm r.
  Proof.
    intros r p O H1 H2 b F. destruct b as [|e b] using rev_ind; [reflexivity|]. clear IHb. apply Forall_app in F. destruct F as (_ & F). apply Forall_inv in F. rewrite B_app. cbn [B map]. rewrite (ends_one r p O).
    destruct (last_cases b e F) as [(_ & ->)|(T & l & m & M & ->)]; rewrite (ends_one r p O); [reflexivity|]. rewrite (H1 _ T), (H2 _ M). reflexivity.
  Qed.
  (** A character of [k], characters of [p], one of [l], and a rest. *)
  Lemma lokm_chain : forall k x p l Y, one x p -> (forall c, mark c -> k c = false /\ p c = true /\ l c = false) -> (forall c, takes c -> p c = false /\ l c = false) -> (forall w, matches Y w -> Forall (fun c => ~ takes c) w) ->
    lokm (Cat (Cat (Cat (Cls k) (Star x)) (Cls l)) Y).
  Proof.
    intros k x p l Y O HM HT HY b F. split.
    - intros (b0 & w & E & M). inversion M as [| |r s t u M1 M2| | | |]; subst. inversion M1 as [| |r s t0 u0 M3 M4| | | |]; subst. inversion M3 as [| |r s t1 u1 M5 M6| | | |]; subst. inversion M5 as [|q c Hc| | | | |]; subst. inversion M4 as [|q n Hn| | | | |]; subst.
      apply (star_one x p O) in M6. cbn [app] in E. rewrite <- !app_assoc in E. cbn [app] in E. apply B_split1 in E. destruct E as (e0 & ms & e1 & -> & <- & E). apply Forall_app in F. destruct F as (F0 & F1). pose proof (Forall_inv_tail F1) as F2. destruct (Forall_inv F1) as (_ & Fm). cbn in Fm.
      assert (N1 : D e1 = B e1).
      { apply (no_marks e1 F2). rewrite E. apply Forall_app. split; [|constructor; [|exact (HY _ M2)]].
        - eapply Forall_impl; [|exact M6]. cbv beta. intros y Hy T. rewrite (proj1 (HT y T)) in Hy. discriminate.
        - intros T. rewrite (proj2 (HT n T)) in Hn. discriminate. }
      exists (D e0), (c :: ms ++ u1 ++ n :: u). split; [rewrite D_app', D_cons, N1, E; reflexivity|]. replace (c :: ms ++ u1 ++ n :: u) with ((([c] ++ (ms ++ u1)) ++ [n]) ++ u) by (cbn [app]; rewrite <- !app_assoc; reflexivity).
      apply m_cat; [|exact M2]. apply m_cat; [|constructor; exact Hn]. apply m_cat; [constructor; exact Hc|]. apply (star_one x p O). apply Forall_app. split; [|exact M6]. eapply Forall_impl; [|exact Fm]. intros y Hy. apply (HM y Hy).
    - intros (b0 & w & E & M). inversion M as [| |r s t u M1 M2| | | |]; subst. inversion M1 as [| |r s t0 u0 M3 M4| | | |]; subst. inversion M3 as [| |r s t1 u1 M5 M6| | | |]; subst. inversion M5 as [|q c Hc| | | | |]; subst. inversion M4 as [|q n Hn| | | | |]; subst.
      apply (star_one x p O) in M6. cbn [app] in E. rewrite <- !app_assoc in E. cbn [app] in E. destruct (D_split b _ _ _ F E) as [(e0 & ms & e1 & -> & -> & E1)|Mc]; [|rewrite (proj1 (HM c Mc)) in Hc; discriminate].
      apply Forall_app in F. destruct F as (F0 & F1). pose proof (Forall_inv_tail F1) as F2. destruct (Forall_inv F1) as (_ & Fm). cbn in Fm.
      assert (NT : Forall (fun c => ~ takes c) (ms ++ D e1)).
      { rewrite <- E1. apply Forall_app. split; [|constructor; [|exact (HY _ M2)]].
        - eapply Forall_impl; [|exact M6]. cbv beta. intros y Hy T. rewrite (proj1 (HT y T)) in Hy. discriminate.
        - intros T. rewrite (proj2 (HT n T)) in Hn. discriminate. }
      apply Forall_app in NT. destruct NT as (_ & NT). rewrite (no_marks' e1 F2 NT) in E1.
      assert (G : exists l', Forall (fun c => p c = true) l' /\ B e1 = l' ++ n :: u).
      { apply app_eq_app in E1. destruct E1 as (l' & [(A & A2)|(A & A2)]).
        - exists l'. split; [|exact A2]. rewrite A in M6. apply Forall_app in M6. apply M6.
        - destruct l' as [|n' l']; [exists []; split; [constructor|symmetry; exact A2]|]. exfalso. cbn in A2. injection A2 as -> _. rewrite A in Fm. apply Forall_app in Fm. destruct Fm as (_ & Fm). pose proof (Forall_inv Fm) as Mn.
          rewrite (proj2 (proj2 (HM _ Mn))) in Hn. discriminate. }
      destruct G as (l' & G1 & G2). exists (B e0), (c :: l' ++ n :: u). split; [rewrite B_app; cbn [B map]; change (map fst e1) with (B e1); rewrite G2; reflexivity|].
      replace (c :: l' ++ n :: u) with ((([c] ++ l') ++ [n]) ++ u) by (cbn [app]; rewrite <- !app_assoc; reflexivity).
      apply m_cat; [|exact M2]. apply m_cat; [|constructor; exact Hn]. apply m_cat; [constructor; exact Hc|]. apply (star_one x p O). exact G1.
  Qed.
  Lemma lokm_chain0 : forall k x p l, one x p -> (forall c, mark c -> k c = false /\ p c = true /\ l c = false) -> (forall c, takes c -> p c = false /\ l c = false) ->
    lokm (Cat (Cat (Cls k) (Star x)) (Cls l)).
  Proof.
    intros k x p l O HM HT b F.
    assert (EE : forall r t, ends_with r t <-> ends_with (Cat r Eps) t).
    { intros r t. split; intros (t0 & w & E & M); exists t0, w; (split; [exact E|]).
      - rewrite <- (app_nil_r w). apply m_cat; [exact M|constructor].
      - inversion M as [| |r' s t1 u M1 M2| | | |]; subst. inversion M2; subst. rewrite app_nil_r. exact M1. }
    etransitivity; [apply EE|]. etransitivity; [|symmetry; apply EE]. apply (lokm_chain k x p l Eps O HM HT); [|exact F]. intros w M. inversion M. constructor.
  Qed.
  (** A character of [k], then characters that are no marks and take none. *)
  Lemma lokm_after : forall k W, (forall c, mark c -> k c = true) -> (forall c, takes c -> k c = true) -> (forall w, matches W w -> Forall hard w) -> lokm (Cat (Cls k) W).
  Proof.
    intros k W HM HT HW b F. split.
    - intros (b0 & w & E & M). inversion M as [| |r s t u M1 M2| | | |]; subst. inversion M1 as [|q c Hc| | | | |]; subst. cbn [app] in E. apply B_split1 in E. destruct E as (e0 & ms & e1 & -> & <- & <-).
      apply Forall_app in F. destruct F as (F0 & F1). pose proof (Forall_inv_tail F1) as F2. apply Forall_inv in F1. pose proof (HW _ M2) as H2.
      assert (N1 : D e1 = B e1) by (apply (no_marks e1 F2); eapply Forall_impl; [|exact H2]; intros y (_ & Hy); exact Hy).
      replace (e0 ++ (c, ms) :: e1) with ((e0 ++ [(c, ms)]) ++ e1) by (rewrite <- app_assoc; reflexivity). rewrite D_app', N1.
      destruct (last_cases e0 (c, ms) F1) as [(_ & ->)|(_ & l & m & Mm & ->)]; cbn [fst].
      + exists (D e0), ([c] ++ B e1). split; [rewrite <- app_assoc; reflexivity|]. apply m_cat; [constructor; exact Hc|exact M2].
      + exists l, ([m] ++ B e1). split; [rewrite <- app_assoc; reflexivity|]. apply m_cat; [constructor; exact (HM m Mm)|exact M2].
    - intros (b0 & w & E & M). inversion M as [| |r s t u M1 M2| | | |]; subst. inversion M1 as [|q c Hc| | | | |]; subst. rewrite app_assoc in E.
      destruct (D_hard_end u (b0 ++ [c]) b (HW _ M2) F E) as (e0 & e1 & -> & E0 & E1 & E2). apply Forall_app in F. destruct F as (F0 & _). destruct e0 as [|(c0, ms) e0] using rev_ind; [destruct b0; discriminate|]. clear IHe0.
      apply Forall_app in F0. destruct F0 as (_ & F0). apply Forall_inv in F0. rewrite !B_app, E2. cbn [B map]. exists (B e0), ([c0] ++ u). split; [rewrite <- app_assoc; reflexivity|]. apply m_cat; [|exact M2]. constructor.
      destruct (last_cases e0 (c0, ms) F0) as [(_ & E3)|(T & _)]; [|exact (HT c0 T)]. rewrite E3 in E0. apply app_inj_tail in E0. destruct E0 as (_ & E0). cbn in E0. subst c0. exact Hc.
  Qed.
  Lemma sotm : forall W, (forall w, matches W w -> Forall hard w) -> forall b, Forall ok b -> matches W (B b) <-> matches W (D b).
  Proof.
    intros W HW b F. split; intros M.
    - rewrite (no_marks b F); [exact M|]. eapply Forall_impl; [|exact (HW _ M)]. intros y (_ & Hy). exact Hy.
    - rewrite <- (no_marks' b F); [exact M|]. eapply Forall_impl; [|exact (HW _ M)]. intros y (_ & Hy). exact Hy.
  Qed.

  Definition okm (r : rule) : Prop := (match r_left r with Suffix l => lokm l | Sot l => forall w, matches l w -> Forall hard w end) /\ rokm (r_right r).
  Lemma applies_marks : forall r, okm r -> forall b a, Forall ok b -> Forall ok a -> applies r (B b) (B a) <-> applies r (D b) (D a).
  Proof.
    intros r (L & R) b a Fb Fa. unfold applies. rewrite (R a Fa). destruct (r_left r) as [l|l]; cbn [left_applies]; [rewrite (L b Fb)|rewrite (sotm l L b Fb)]; reflexivity.
  Qed.
  Lemma says_marks : forall rs b a v, Forall okm rs -> Forall ok b -> Forall ok a -> says (B b) (B a) rs v <-> says (D b) (D a) rs v.
  Proof.
    induction rs as [|r rs IH]; intros b a v F Fb Fa.
    - split; intros S; inversion S; subst; apply says_none.
    - pose proof (applies_marks r (Forall_inv F) b a Fb Fa) as A. pose proof (fun v => IH b a v (Forall_inv_tail F) Fb Fa) as I. split; intros S; inversion S; subst.
      + apply says_this, A. assumption.
      + apply says_next; [intros X; apply A in X; contradiction|apply I; assumption].
      + apply says_this, A. assumption.
      + apply says_next; [intros X; apply A in X; contradiction|apply I; assumption].
  Qed.

  Section Red.
    Variables ign keep : N -> bool.
    Hypothesis ign_mark : forall c, mark c -> ign c = true.
    Hypothesis keep_mark : forall c, mark c -> keep c = false.
    Hypothesis keep_takes : forall c, takes c -> keep c = false.
    Lemma reduce_ms : forall ms p t, Forall mark ms -> held keep p = true -> reduce ign keep p (ms ++ t) = reduce ign keep p t.
    Proof.
      induction ms as [|m ms IH]; intros p t F H; [reflexivity|]. cbn [app reduce]. rewrite (ign_mark m (Forall_inv F)). change (match p with Some p => negb (keep p) | None => false end) with (held keep p). rewrite H. cbn [andb].
      assert (Hm : held keep (Some m) = true) by (cbn; rewrite (keep_mark m (Forall_inv F)); reflexivity). rewrite (IH _ _ (Forall_inv_tail F) Hm). apply reduce_held. congruence.
    Qed.
    Lemma reduce_marks : forall t p, Forall ok t -> reduce ign keep p (D t) = reduce ign keep p (B t).
    Proof.
      induction t as [|(c, ms) t IH]; intros p F; [reflexivity|]. rewrite D_cons. cbn [fst snd B map reduce]. destruct (Forall_inv F) as (T & M). cbn [fst snd] in *.
      assert (E : reduce ign keep (Some c) (ms ++ D t) = reduce ign keep (Some c) (B t)).
      { destruct T as [->|T]; [exact (IH _ (Forall_inv_tail F))|]. rewrite reduce_ms; [exact (IH _ (Forall_inv_tail F))|exact M|]. cbn. rewrite (keep_takes c T). reflexivity. }
      rewrite E. reflexivity.
    Qed.
    Lemma last_char_app : forall (b : text) x, last_char (b ++ [x]) = Some x.
    Proof. induction b as [|c b IHb]; intros x; [reflexivity|]. cbn [app last_char]. rewrite IHb. destruct (b ++ [x]) eqn:E; [destruct b; discriminate|reflexivity]. Qed.
    Lemma last_marks : forall b t, Forall ok b -> reduce ign keep (last_char (D b)) t = reduce ign keep (last_char (B b)) t.
    Proof.
      intros b t F. destruct b as [|e b] using rev_ind; [reflexivity|]. clear IHb. apply Forall_app in F. destruct F as (_ & F). apply Forall_inv in F. rewrite B_app. cbn [B map]. rewrite last_char_app.
      destruct (last_cases b e F) as [(_ & ->)|(T & l & m & M & ->)]; rewrite last_char_app; [reflexivity|]. apply reduce_held. cbn. rewrite (keep_takes _ T), (keep_mark _ M). reflexivity.
    Qed.
  End Red.

  (** ** Segmentations *)
  Lemma D_nil' : forall t, D t = [] -> t = [].
  Proof. intros [|e t] E; [reflexivity|]. discriminate. Qed.
  Lemma B_nil : forall t, B t = [] -> t = [].
  Proof. intros [|e t] E; [reflexivity|]. discriminate. Qed.
  Lemma splits : forall t b' a', D t = b' ++ a' -> (exists b a, t = b ++ a /\ b' = D b /\ a' = D a)
    \/ (exists b c m1 m m2 a, t = b ++ (c, m1 ++ m :: m2) :: a /\ b' = D b ++ c :: m1 /\ a' = m :: m2 ++ D a).
  Proof.
    induction t as [|(c, ms) t IH]; intros b' a' E.
    - destruct b'; [|discriminate]. cbn in E. subst a'. left. exists [], []. auto.
    - destruct b' as [|c' b']; [left; exists [], ((c, ms) :: t); auto|]. rewrite D_cons in E. cbn [fst snd app] in E. injection E as <- E. apply app_eq_app in E. destruct E as (l & [(E1 & E2)|(E1 & E2)]).
      + destruct l as [|m l].
        * rewrite app_nil_r in E1. cbn in E2. left. exists [(c, ms)], t. rewrite D_cons. cbn. rewrite app_nil_r, E1. auto.
        * right. exists [], c, b', m, l, t. rewrite E1. auto.
      + destruct (IH l a' E2) as [(b & a & -> & -> & ->)|(b & y & m1 & m & m2 & a & -> & -> & ->)].
        * left. exists ((c, ms) :: b), a. rewrite D_cons, E1. auto.
        * right. exists ((c, ms) :: b), y, m1, m, m2, a. rewrite D_cons, E1. cbn [fst snd app]. rewrite <- app_assoc. auto.
  Qed.
  Lemma groups : forall segs t, concat segs = B t -> exists gs, concat gs = t /\ segs = map B gs.
  Proof.
    induction segs as [|s segs IH]; intros t E; cbn [concat] in E; [symmetry in E; apply B_nil in E; subst t; exists []; auto|].
    symmetry in E. apply B_split in E. destruct E as (e & f & -> & <- & E). destruct (IH f (eq_sym E)) as (gs & <- & ->). exists (e :: gs). auto.
  Qed.
  Lemma B_len : forall t, length (B t) = length t. Proof. intros t. apply map_length. Qed.
  Lemma concat_B : forall gs, concat (map B gs) = B (concat gs).
  Proof. induction gs as [|g gs IH]; [reflexivity|]. cbn [map concat]. rewrite IH, B_app. reflexivity. Qed.
  Lemma concat_D : forall gs, concat (map D gs) = D (concat gs).
  Proof. induction gs as [|g gs IH]; [reflexivity|]. cbn [map concat]. rewrite IH, D_app'. reflexivity. Qed.
  Lemma prefix_len : forall (x y b a : list elem), x ++ y = b ++ a -> length x = length b -> x = b.
  Proof. induction x as [|c x IH]; intros y [|c' b] a E L; cbn in *; try lia; auto. injection E as -> E. f_equal. eapply IH; eauto. Qed.
  Lemma D_prefix : forall x y b a : list elem, x ++ y = b ++ a -> D x = D b -> x = b.
  Proof.
    intros x y b a E L. apply app_eq_app in E. destruct E as (l & [(-> & _)|(-> & _)]); rewrite D_app' in L.
    - rewrite <- (app_nil_r (D b)) in L at 2. apply app_inv_head in L. apply D_nil' in L. subst l. apply app_nil_r.
    - rewrite <- (app_nil_r (D x)) in L at 1. apply app_inv_head in L. symmetry in L. apply D_nil' in L. subst l. symmetry. apply app_nil_r.
  Qed.
  Theorem seg_marks : forall Dc : text -> text -> op -> Prop,
    (forall b a, Forall ok b -> Forall ok a -> Dc (B b) (B a) Break <-> Dc (D b) (D a) Break) ->
    (forall b y m a, takes y \/ mark y -> mark m -> ~ Dc (b ++ [y]) (m :: a) Break) ->
    forall t segs, Forall ok t -> segmentation Dc (B t) segs -> exists gs, concat gs = t /\ segs = map B gs /\ segmentation Dc (D t) (map D gs).
  Proof.
    intros Dc HD HI t segs F (H1 & H2 & H3). destruct (groups segs t H1) as (gs & E & ->). exists gs. split; [exact E|]. split; [reflexivity|].
    split; [rewrite concat_D, E; reflexivity|]. split.
    { apply Forall_map. rewrite Forall_map in H2. eapply Forall_impl; [|exact H2]. cbv beta. intros g Hg X. apply Hg. apply D_nil' in X. subst g. reflexivity. }
    intros b' a' Nb Na Et. destruct (splits _ _ _ Et) as [(b & a & -> & -> & ->)|(b & c & m1 & m & m2 & a & -> & -> & ->)].
    - apply Forall_app in F. destruct F as (Fb & Fa). rewrite <- (HD b a Fb Fa).
      assert (Nb' : B b <> []) by (intros X; apply B_nil in X; rewrite X in Nb; apply Nb; reflexivity). assert (Na' : B a <> []) by (intros X; apply B_nil in X; rewrite X in Na; apply Na; reflexivity).
      rewrite <- (H3 (B b) (B a) Nb' Na' (B_app b a)). split.
      + intros (s1 & s2 & Es & E1). apply map_eq_app in Es. destruct Es as (g1 & g2 & -> & <- & <-). exists (map B g1), (map B g2). rewrite map_app. split; [reflexivity|]. rewrite concat_D in E1. rewrite concat_app in E.
        rewrite concat_B, (D_prefix _ _ _ _ E E1). reflexivity.
      + intros (s1 & s2 & Es & E1). apply map_eq_app in Es. destruct Es as (g1 & g2 & -> & <- & <-). exists (map D g1), (map D g2). rewrite map_app. split; [reflexivity|]. rewrite concat_B in E1. rewrite concat_app in E.
        assert (X : concat g1 = b) by (eapply prefix_len; [exact E|]; apply (f_equal (@length N)) in E1; rewrite !B_len in E1; exact E1). rewrite concat_D, X. reflexivity.
    - split.
      + intros (s1 & s2 & Es & E1). exfalso. apply map_eq_app in Es. destruct Es as (g1 & g2 & -> & <- & <-). rewrite concat_D in E1. rewrite concat_app in E. clear - E E1.
        apply app_eq_app in E. destruct E as (l & [(A & A2)|(A & A2)]); rewrite A in *.
        * rewrite D_app' in E1. apply app_inv_head in E1. destruct l as [|e l]; [discriminate|]. cbn in A2. injection A2 as <- _. rewrite D_cons in E1. cbn [fst snd] in E1. injection E1 as E1. rewrite <- app_assoc in E1. rewrite <- (app_nil_r m1) in E1 at 2. apply app_inv_head in E1. discriminate.
        * rewrite D_app', <- app_assoc in E1. rewrite <- (app_nil_r (D (concat g1))) in E1 at 1. apply app_inv_head in E1. symmetry in E1. apply app_eq_nil in E1. destruct E1. discriminate.
      + intros X. exfalso. apply Forall_app in F. destruct F as (_ & F). apply Forall_inv in F. destruct F as (T & M). cbn [fst snd] in *. destruct T as [T|T]; [destruct m1; discriminate|]. apply Forall_app in M. destruct M as (M1 & M2).
        destruct m1 as [|y m1] using rev_ind; [exact (HI _ c m _ (or_introl T) (Forall_inv M2) X)|]. clear IHm1. apply Forall_app in M1. destruct M1 as (_ & M1). change (c :: m1 ++ [y]) with ((c :: m1) ++ [y]) in X. rewrite app_assoc in X.
        exact (HI _ y m _ (or_intror (Forall_inv M1)) (Forall_inv M2) X).
  Qed.
End Marks.
