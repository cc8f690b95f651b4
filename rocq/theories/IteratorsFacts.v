(** internal/iterators.Iterator against its specification. *)
From Verif Require Import Base ListFacts Engine SpecIter SpecJoiners SpecIterators Iterators.
Local Open Scope Z_scope.

Lemma wrap_small : forall z, - 2 ^ 63 <= z < 2 ^ 63 -> wrap z = z.
Proof. intros z H. unfold wrap. rewrite Z.mod_small; lia. Qed.
Lemma wrap_big : forall z, 2 ^ 63 <= z < 2 ^ 64 -> wrap z < 0.
Proof. intros z H. unfold wrap. replace (z + 2 ^ 63) with (z - 2 ^ 63 + 1 * 2 ^ 64) by lia. rewrite Z.mod_add by lia. rewrite Z.mod_small by lia. lia. Qed.
Lemma zslice_ok : forall d lo hi, 0 <= lo <= hi -> hi <= len d -> zslice d lo hi = Ok (firstn (Z.to_nat (hi - lo)) (skipn (Z.to_nat lo) d)).
Proof. intros d lo hi H1 H2. unfold zslice. rewrite (proj2 (Z.leb_le _ _)), (proj2 (Z.leb_le _ _)), (proj2 (Z.leb_le _ _)) by lia. reflexivity. Qed.
Lemma zslice_inv : forall d lo hi v, zslice d lo hi = Ok v -> 0 <= lo <= hi /\ hi <= len d /\ v = firstn (Z.to_nat (hi - lo)) (skipn (Z.to_nat lo) d).
Proof.
  intros d lo hi v H. unfold zslice in H. destruct (_ && _) eqn:E; [|discriminate]. apply andb_true_iff in E. destruct E as [E E3]. apply andb_true_iff in E. destruct E as [E1 E2].
  apply Z.leb_le in E1, E2, E3. injection H as <-. auto.
Qed.
Lemma zslice_rest : forall d pos, (pos <= length d)%nat -> zslice d (Z.of_nat pos) (len d) = Ok (skipn pos d).
Proof. intros d pos H. unfold len. rewrite zslice_ok by (unfold len; lia). rewrite Nat2Z.id. f_equal. apply firstn_all2. rewrite skipn_length. lia. Qed.

Section Loop.
  Variable f : splitfun.
  Hypothesis HF : advances f.
  Definition is_at (it : iter) (data : bytes) (start pos : nat) : Prop := it_split it = f /\ it_data it = data /\ it_start it = Z.of_nat start /\ it_pos it = Z.of_nat pos.

  Lemma next_end : forall it data start, is_at it data start (length data) -> Next it = (it, Ok false).
  Proof. intros it data start (E1 & E2 & E3 & E4). unfold Next. rewrite E2, E4. unfold len. rewrite Z.eqb_refl. reflexivity. Qed.
  Lemma next_step : forall it data start pos, is_at it data start pos -> (pos < length data)%nat -> len data < 2 ^ 63 ->
    exists n it', (0 < n <= length data - pos)%nat /\ Next it = (it', Ok true) /\ is_at it' data pos (pos + n)
      /\ forall l, cut_by f (skipn (pos + n) data) l -> cut_by f (skipn pos data) (firstn n (skipn pos data) :: l).
  Proof.
    intros it data start pos (E1 & E2 & E3 & E4) Hp Hm. unfold Next. rewrite E2, E4. unfold len in Hm |- *.
    rewrite (proj2 (Z.eqb_neq _ _)) by lia. rewrite (proj2 (Z.ltb_ge _ _)) by lia. fold (len data). rewrite zslice_rest by lia. unfold len. cbn [at_ it_start it_pos it_data].
    destruct (Z.eqb_spec (Z.of_nat (length (skipn pos data))) 1) as [E|E].
    - rewrite skipn_length in E. exists 1%nat. eexists. split; [lia|]. split; [reflexivity|]. split.
      + split; [exact E1|]. split; [exact E2|]. split; [reflexivity|]. cbn [at_ it_pos it_start]. rewrite wrap_small by lia. lia.
      + intros l Hl. rewrite skipn_all2 in Hl by lia. destruct (skipn pos data) as [|b s] eqn:ES; [apply (f_equal (@length N)) in ES; rewrite skipn_length in ES; cbn in ES; lia|].
        assert (s = []) as -> by (apply (f_equal (@length N)) in ES; rewrite skipn_length in ES; destruct s; [reflexivity|cbn in ES; lia]).
        cbn [firstn]. inversion Hl as [|?|? ? ? ? Q]; subst; [constructor|cbn in Q; lia].
    - rewrite skipn_length in E. destruct (HF (skipn pos data)) as (n & tok & Hn & Hf); [apply skipn_nonnil; lia|]. rewrite skipn_length in Hn. rewrite E1, Hf. cbn [so_err so_advance].
      rewrite (proj2 (Z.leb_gt _ _)) by lia. cbn [it_data it_pos]. rewrite wrap_small by lia. rewrite E2. rewrite (proj2 (Z.ltb_ge _ _)) by lia.
      exists n. eexists. split; [lia|]. split; [reflexivity|]. split.
      + split; [exact E1|]. split; [exact E2|]. split; [reflexivity|]. cbn [at_ it_pos it_start]. try rewrite wrap_small by lia. lia.
      + intros l Hl. eapply cut_more; [rewrite skipn_length; lia|exact Hf|rewrite skipn_length; lia|]. rewrite skipn_skipn. replace (n + pos)%nat with (pos + n)%nat by lia. exact Hl.
  Qed.
  Lemma loop_ok : forall fuel it data start pos, is_at it data start pos -> (pos <= length data)%nat -> len data < 2 ^ 63 -> (length data - pos < fuel)%nat ->
    exists l, collect step observe fuel it = Ok (map span_z l) /\ spans_from data pos l /\ cut_by f (skipn pos data) (map value_of l).
  Proof.
    induction fuel as [|fuel IH]; intros it data start pos Hit Hp Hm Hf; [lia|]. cbn [collect]. unfold step at 1. destruct (Nat.eq_dec pos (length data)) as [->|Hne].
    - rewrite (next_end it data start Hit). cbn [bind]. exists []. split; [reflexivity|]. split; [reflexivity|]. rewrite skipn_all. constructor.
    - destruct (next_step it data start pos Hit ltac:(lia) Hm) as (n & it' & Hn & HN & Hit' & HC). rewrite HN. cbn [bind].
      destruct (IH it' data pos (pos + n)%nat Hit' ltac:(lia) Hm ltac:(lia)) as (l & Hl & Hs & Hc).
      assert (HV : observe it' = Ok (firstn n (skipn pos data), Z.of_nat pos, Z.of_nat (pos + n))).
      { destruct Hit' as (_ & F2 & F3 & F4). unfold observe, Value, Start, End_. rewrite F2, F3, F4. unfold len in Hm. rewrite zslice_ok by (unfold len; lia). cbn [bind].
        rewrite Nat2Z.id. replace (Z.to_nat (Z.of_nat (pos + n) - Z.of_nat pos)) with n by lia. reflexivity. }
      rewrite HV. cbn [bind]. rewrite Hl. cbn [bind]. exists ((firstn n (skipn pos data), pos, (pos + n)%nat) :: l). split; [reflexivity|]. split.
      + cbn [spans_from]. split; [reflexivity|]. split; [lia|]. split; [f_equal; lia|exact Hs].
      + cbn [map value_of fst]. apply HC. exact Hc.
  Qed.
  Lemma first_ok : forall data, data <> [] -> exists n, (0 < n <= length data)%nat /\ First (New f data) = Ok (firstn n data) /\ forall l, cut_by f data l -> exists r, l = firstn n data :: r.
  Proof.
    intros data Hd. destruct (HF data Hd) as (n & tok & Hn & Hf). exists n. split; [exact Hn|]. split.
    - unfold First, New. cbn [it_data it_split]. unfold len. rewrite (proj2 (Z.eqb_neq _ _)) by lia. rewrite Hf. cbn [bind so_err so_advance]. rewrite (proj2 (Z.leb_gt _ _)) by lia.
      rewrite (proj2 (Z.ltb_ge _ _)) by lia. rewrite zslice_ok by (unfold len; lia). cbn [skipn Z.to_nat]. f_equal. f_equal. lia.
    - intros l Hl. inversion Hl as [E|b E|? m t r L F R C]; subst; [congruence| |].
      + assert (n = 1%nat) as -> by (cbn in Hn; lia). exists []. reflexivity.
      + rewrite Hf in F. injection F as F _. apply Nat2Z.inj in F. subst m. exists r. reflexivity.
  Qed.
End Loop.

Lemma spans_concat : forall data l pos, (pos <= length data)%nat -> spans_from data pos l -> concat (map value_of l) = skipn pos data.
Proof.
  intros data l. induction l as [|[[v s] e] l IH]; intros pos Hp H; cbn [spans_from] in H.
  - subst pos. rewrite skipn_all. reflexivity.
  - destruct H as (-> & He & -> & H). cbn [map concat value_of fst]. rewrite (IH e ltac:(lia) H). rewrite <- (firstn_skipn (e - pos) (skipn pos data)) at 2. f_equal. rewrite skipn_skipn. f_equal. lia.
Qed.

(** ** Any split function, any state *)
Lemma next_true : forall it it' tok, returns_ints (it_split it) -> len (it_data it) < 2 ^ 63 -> Next it = (it', Ok true) -> Value it' = Ok tok ->
  tok <> [] /\ exists before rest, it_data it = before ++ tok ++ rest /\ it_pos it = len before /\ Start it' = len before /\ End_ it' = len before + len tok /\ it_data it' = it_data it /\ it_split it' = it_split it
    /\ (rest = [] /\ length tok = 1%nat \/ exists o, it_split it (tok ++ rest) true = Ok o /\ so_err o = None /\ so_advance o = len tok).
Proof.
  intros it it' tok RI Hm HN HV. unfold Next in HN. destruct (Z.eqb_spec (it_pos it) (len (it_data it))); [discriminate|]. destruct (Z.ltb_spec (len (it_data it)) (it_pos it)); [discriminate|].
  destruct (zslice (it_data it) (it_pos it) (len (it_data it))) as [d| |] eqn:ES; [|discriminate|discriminate]. apply zslice_inv in ES. destruct ES as (P1 & P2 & ED).
  assert (ED' : d = skipn (Z.to_nat (it_pos it)) (it_data it)). { rewrite ED. apply firstn_all2. rewrite skipn_length. unfold len in *. lia. } clear ED. 
  assert (EB : it_data it = firstn (Z.to_nat (it_pos it)) (it_data it) ++ d) by (rewrite ED'; symmetry; apply firstn_skipn).
  set (before := firstn (Z.to_nat (it_pos it)) (it_data it)) in *.
  assert (HB : it_pos it = len before). { unfold before, len. rewrite firstn_length. unfold len in *. lia. }
  assert (HL : len (it_data it) = len before + len d). { unfold len. rewrite EB, app_length at 1. lia. }
  assert (G : forall it2 n, it2 = at_ it (it_pos it) (it_pos it + n) -> 0 < n <= len d -> Value it2 = Ok (firstn (Z.to_nat n) d)).
  { intros it2 n1 -> Hn1. unfold Value. cbn [at_ it_data it_start it_pos]. rewrite zslice_ok by lia. rewrite ED'. f_equal. f_equal. lia. }
  destruct (Z.eqb_spec (len d) 1) as [E1|E1].
  - injection HN as HN. cbn [at_ it_start it_pos it_split it_data] in HN. rewrite wrap_small in HN by (unfold len in *; lia). assert (HI : it' = at_ it (it_pos it) (it_pos it + 1)) by (rewrite <- HN; reflexivity).
    rewrite (G it' 1 HI) in HV by lia. injection HV as HV. assert (tok = d) as ->. { rewrite <- HV. unfold len in E1. destruct d as [|a0 [|]]; cbn in E1 |- *; congruence || lia || reflexivity. }
    split; [intros ->; discriminate E1|]. exists before, []. rewrite app_nil_r. rewrite HI. unfold Start, End_. cbn [at_ it_start it_pos it_data it_split]. split; [exact EB|]. split; [exact HB|]. split; [exact HB|]. split; [lia|].
    split; [reflexivity|]. split; [reflexivity|]. left. split; [reflexivity|]. unfold len in E1. lia.
  - destruct (it_split it d true) as [o| |] eqn:EO; [|discriminate|discriminate]. destruct (so_err o) eqn:EE; [discriminate|]. destruct (Z.leb_spec (so_advance o) 0); [discriminate|].
    cbn [at_ it_start it_pos it_split it_data] in HN. pose proof (RI _ _ _ EO) as HR. destruct (Z.ltb_spec (len (it_data it)) (wrap (it_pos it + so_advance o))); [discriminate|]. injection HN as HN.
    destruct (Z.lt_ge_cases (it_pos it + so_advance o) (2 ^ 63)) as [HW|HW].
    + rewrite wrap_small in * by lia. assert (HI : it' = at_ it (it_pos it) (it_pos it + so_advance o)) by (rewrite <- HN; reflexivity).
      rewrite (G it' (so_advance o) HI) in HV by lia. injection HV as HV.
      assert (HT : len tok = so_advance o). { rewrite <- HV. unfold len. rewrite firstn_length. unfold len in *. lia. }
      split; [intros ->; cbn in HT; lia|]. exists before, (skipn (Z.to_nat (so_advance o)) d). rewrite <- HV at 1. rewrite firstn_skipn. rewrite HI. unfold Start, End_. cbn [at_ it_start it_pos it_data it_split].
      split; [exact EB|]. split; [exact HB|]. split; [exact HB|]. split; [lia|]. split; [reflexivity|]. split; [reflexivity|]. right. exists o. rewrite <- HV at 1. rewrite firstn_skipn. auto.
    + pose proof (wrap_big (it_pos it + so_advance o) ltac:(lia)) as HN'. exfalso. rewrite <- HN in HV. unfold Value in HV. cbn [at_ it_data it_start it_pos] in HV. apply zslice_inv in HV. lia.
Qed.
Lemma next_fails : forall it before d o, it_data it = before ++ d -> it_pos it = len before -> (2 <= length d)%nat -> it_split it d true = Ok o ->
  errs o \/ stalls o \/ overruns d o /\ len before + so_advance o < 2 ^ 63 -> snd (Next it) = Panic.
Proof.
  intros it before d o ED EP Hd HO H. assert (HL : len (it_data it) = len before + len d). { rewrite ED. unfold len. rewrite app_length. lia. }
  unfold Next. rewrite (proj2 (Z.eqb_neq _ _)) by (unfold len in *; lia). rewrite (proj2 (Z.ltb_ge _ _)) by (unfold len in *; lia).
  rewrite EP. unfold len at 1. rewrite zslice_rest by (rewrite ED, app_length; lia). rewrite ED, skipn_app, skipn_all, Nat.sub_diag. cbn [app skipn].
  rewrite (proj2 (Z.eqb_neq (len d) 1)) by (unfold len; lia). rewrite HO. destruct (so_err o) eqn:EE; [reflexivity|]. destruct (Z.leb_spec (so_advance o) 0); [reflexivity|].
  cbn [at_ it_start it_pos it_data]. destruct H as [H|[H|[H HS]]]; [destruct (H EE)|unfold stalls in H; lia|]. unfold overruns in H. rewrite wrap_small by (unfold len; unfold len in HS; lia). unfold len in *. rewrite (proj2 (Z.ltb_lt _ _)) by lia. reflexivity.
Qed.
Lemma first_fails : forall it o, it_data it <> [] -> it_split it (it_data it) true = Ok o -> errs o \/ stalls o \/ overruns (it_data it) o -> First it = Panic.
Proof.
  intros it o Hd HO H. unfold First. rewrite (proj2 (Z.eqb_neq _ _)) by (destruct (it_data it); [congruence|unfold len; cbn; lia]). rewrite HO. cbn [bind].
  destruct (so_err o) eqn:EE; [reflexivity|]. destruct (Z.leb_spec (so_advance o) 0); [reflexivity|]. destruct H as [H|[H|H]]; [destruct (H EE)|unfold stalls in H; lia|]. unfold overruns in H. unfold len. rewrite (proj2 (Z.ltb_lt _ _)) by lia. reflexivity.
Qed.
Lemma beyond : forall it, len (it_data it) < it_pos it -> Next it = (it, Panic) /\ Value it = Panic.
Proof.
  intros it H. split.
  - unfold Next. rewrite (proj2 (Z.eqb_neq _ _)) by lia. rewrite (proj2 (Z.ltb_lt _ _)) by lia. reflexivity.
  - unfold Value, zslice. rewrite (proj2 (Z.leb_gt (it_pos it) _)) by lia. rewrite andb_false_r. reflexivity.
Qed.

(** ** The split functions of the packages *)
Lemma cut_tokens : forall f, split_ok f -> forall d l, cut_by f d l -> tokens_by f d l.
Proof.
  intros f SO d l H. induction H as [|b|d n tok l L F R C IH].
  - constructor.
  - destruct (so_eof f SO [b] ltac:(discriminate)) as (n & Hn & Hf). assert (n = 1%nat) as -> by (cbn in Hn; lia). change [b] with (firstn 1 [b]) at 2. eapply by_cons; [exact Hf|exact Hn|]. constructor.
  - destruct (so_eof f SO d) as (m & Hm & Hf); [destruct d; [cbn in L; lia|discriminate]|]. rewrite F in Hf. injection Hf as Hf _. apply Nat2Z.inj in Hf. subst m.
    destruct (so_eof f SO d) as (m & Hm' & Hf); [destruct d; [cbn in L; lia|discriminate]|]. rewrite F in Hf. injection Hf as Hf Ht. apply Nat2Z.inj in Hf. subst m. eapply by_cons; [|exact R|exact IH]. rewrite F, Ht. reflexivity.
Qed.
Lemma split_advances : forall f, split_ok f -> advances f.
Proof. intros f SO d Hd. destruct (so_eof f SO d Hd) as (n & Hn & Hf). exists n, (Some (firstn n d)). split; [exact Hn|exact Hf]. Qed.
