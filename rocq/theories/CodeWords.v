(** Package words: clients of the program text get what the model says. *)
From Coq Require Import String.
From Verif Require Import SpecIter SpecApi ApiFacts ApiInst.
From Verif Require Import Base Engine GoSyntax GoSem GoFacts SpecCode CodeApi ProgWords Words WordsEngine CodeWBase CodeWSplit CodeWFunc CodeWIter.
From Verif Require BleveFacts.
Local Open Scope string_scope.
Local Open Scope list_scope.

(** it.Joiners(&Joiners[T]{Middle: m, Leading: l}), where an empty slice is nil if [nils] says so, or it.Joiners(nil). *)
Definition runes_val (nils : bool) (l : list N) : val := VRunes (match l with [] => if nils then None else Some [] | _ => Some (map Z.of_N l) end).
Definition words_config (nils : bool) (p : program) (rounds depth : nat) (it : val) (c : option Joiners) (h : heap) : out heap :=
  ' (_, _, h) <== match c with
                  | Some j => exec p (call p rounds depth) rounds
                                (SExpr (ECall (ESel (EId "it") "Joiners") [EUn "&" (EComp "Joiners" [("Middle", EId "m"); ("Leading", EId "l")])]))
                                [[("it", it); ("m", runes_val nils (Middle j)); ("l", runes_val nils (Leading j))]] h
                  | None => exec p (call p rounds depth) rounds (SExpr (ECall (ESel (EId "it") "Joiners") [EId "nil"])) [[("it", it)]] h
                  end ;; Done h.
Definition w_rep (it : iter) (o : origin) (q : val) (h : heap) : Prop :=
  exists l sv j, q = VPtr "Iterator" (Some l) /\ hget l h = Some (iter_obj o sv it) /\ split_at (it_split it) sv h /\ is_split sv /\ it_split it = joinersSplitFunc j.

Lemma jsplit_bound : forall j d e r, joinersSplitFunc j d e = Ok r -> (0 <= so_advance r <= Z.of_nat (length d))%Z.
Proof.
  intros j d e r H. unfold joinersSplitFunc in H. destruct (is_nil d); [injection H as <-; cbn; lia|].
  unfold slice_from in H. cbn [Nat.ltb Nat.leb bind] in H. change (length d <? 0)%nat with false in H. cbn [bind] in H.
  destruct (TableWords.words_lookup (skipn 0 d)) as [[cur w]| |]; try discriminate. cbn [bind] in H.
  destruct (w =? 0)%nat.
  - destruct (negb e); [injection H as <-; cbn; lia|]. destruct (slice_to d (length d)); try discriminate. injection H as <-. cbn. lia.
  - destruct (w_loop _ _ _ _ _) as [[pos|]| |]; try discriminate; cbn [bind] in H; [|injection H as <-; cbn; lia].
    unfold slice_to in H. destruct (Nat.ltb_spec (length d) pos); [discriminate|]. injection H as <-. cbn. lia.
Qed.
Lemma call_Joiners_nil : forall n k q h, call pw n (2 + k) ("Iterator", "Joiners") [q; VNil] h = call pw n (2 + k) ("Iterator", "Joiners") [q; VPtr "Joiners" None] h.
Proof. reflexivity. Qed.
Lemma runes_val_rep : forall nils l, exists m, runes_val nils l = VRunes m /\ runes_rep m l.
Proof. intros nils [|a l]; [destruct nils|]; eexists; (split; [reflexivity|]); reflexivity. Qed.

Lemma next_keeps : forall it b it', Next it = Ok (b, it') -> it_split it' = it_split it.
Proof.
  assert (NS : forall it b it', next_split it = Ok (b, it') -> it_split it' = it_split it).
  { intros it b it' H. unfold next_split in H. destruct (slice_from _ _); try discriminate. cbn [bind] in H. destruct (it_split it a true) as [r| |]; try discriminate. cbn [bind] in H.
    destruct (so_err r); try discriminate. destruct (so_advance r <=? 0)%Z; try discriminate. destruct (_ <? _)%nat in H; try discriminate. injection H as <- <-. reflexivity. }
  intros it b it' H. unfold Next in H. destruct (_ <=? _)%nat in H; [injection H as <- <-; reflexivity|]. destruct (byte_at _ _) as [c| |]; try discriminate. cbn [bind] in H.
  destruct (isASCIIAlphanumeric c); [|exact (NS _ _ _ H)]. destruct (slice_from _ _); try discriminate. cbn [bind] in H. destruct (_ <=? _)%nat in H; [injection H as <- <-; reflexivity|].
  destruct (byte_at _ _) as [c'| |] in H; try discriminate. cbn [bind] in H. destruct (c' =? 32)%N; [injection H as <- <-; reflexivity|exact (NS _ _ _ H)].
Qed.
Lemma first_keeps : forall it v it', First it = Ok (v, it') -> it' = it.
Proof.
  intros it v it' H. unfold First in H. destruct (_ =? _)%nat; [congruence|]. destruct (Next _) as [[b cp]| |]; try discriminate. cbn [bind] in H. destruct (Value cp); try discriminate. cbn [bind] in H. congruence.
Qed.

Lemma words_is_model : forall nils, program_is_model words_api pw 7 (words_config nils).
Proof.
  intros nils str max n k0 t us h T P M R K. destruct (Nat.le_exists_sub _ _ K) as (k & -> & _). rewrite Nat.add_comm. clear K.
  assert (FI : forall o d j, proper str max (o, d) -> forall it, it_data it = d -> it_split it = joinersSplitFunc j -> fine n o it).
  { intros o d j (_ & Q1 & Q2) it <- SP. cbn in Q1, Q2. repeat split; [exact Q1|lia|lia|]. rewrite SP. intros d r L E. apply jsplit_bound in E. lia. }
  eapply sim_client with (Rep := w_rep); try exact words_api_ok; try exact T; try exact P; unfold method; clear t us h T P.
  - intros [o d] h [S _]. cbn [fst snd] in *. unfold text_val. cbn [fst snd].
    destruct (is_string o) eqn:E; cbn [Nat.add]; erewrite call_S by reflexivity; [replace o with Str by (destruct o; try discriminate; reflexivity); rewrite FromString_run|rewrite FromBytes_run];
      do 2 eexists; (split; [reflexivity|]); do 3 eexists; (split; [reflexivity|]); (split; [exact (hget_new _ _)|]); (split; [left; split; reflexivity|]); (split; [exact I|reflexivity]).
  - intros it o q h b it' (l & sv & j & -> & G & S & IS & SP) [W _] E. destruct (call_Next n (1 + k) o sv it l h (FI _ _ j W it eq_refl SP) S G) as (g & CN).
    change (a_next words_api it) with (Next it) in E. rewrite E in CN. cbn [as_out fst snd] in CN. eexists. split; [exact CN|].
    assert (SI : it_split it' = it_split it) by (eapply next_keeps; exact E).
    exists l, sv, j. repeat split; try assumption; [| |congruence].
    + rewrite hget_app by (rewrite hset_length; eapply hget_bound; exact G). apply hget_hset. eapply hget_bound; exact G.
    + rewrite SI. apply split_at_app. eapply split_at_hset; [exact G|exact S].
  - intros it o q h v (l & sv & j & -> & G & X) _ E. exists h. split; [eapply (call_Value n (6 + k)); eassumption|]. now exists l, sv, j.
  - intros it o q h (l & sv & j & -> & G & X). exists h. split; [cbn [Nat.add]; erewrite call_S by reflexivity; eapply Start_run; eassumption|]. now exists l, sv, j.
  - intros it o q h (l & sv & j & -> & G & X). exists h. split; [cbn [Nat.add]; erewrite call_S by reflexivity; eapply End_run; eassumption|]. now exists l, sv, j.
  - intros it o q h (l & sv & j & -> & G & S & IS & SP). eexists. split; [cbn [Nat.add]; erewrite call_S by reflexivity; eapply Reset_run; eassumption|]. exists l, sv, j. repeat split; try assumption.
    + apply hget_hset. eapply hget_bound; exact G.
    + eapply split_at_hset; [exact G|exact S].
  - intros it o q h [o' d] (l & sv & j & -> & G & S & IS & SP) _. eexists. split; [cbn [Nat.add]; erewrite call_S by reflexivity; eapply SetText_run; eassumption|]. exists l, sv, j. repeat split; try assumption.
    + apply hget_hset. eapply hget_bound; exact G.
    + eapply split_at_hset; [exact G|exact S].
  - intros it o q h v it' (l & sv & j & -> & G & S & IS & SP) [W _] E. destruct (call_First n k o sv it l h (FI _ _ j W it eq_refl SP) S G) as (g & CN).
    change (a_first words_api it) with (First it) in E. rewrite E in CN. cbn [as_out fst snd] in CN. eexists. split; [exact CN|].
    assert (SI : it' = it) by (eapply first_keeps; exact E). subst it'.
    exists l, sv, j. repeat split; try assumption.
    + rewrite hget_app by (rewrite hset_length; eapply hget_bound; exact G). apply hget_hset. eapply hget_bound; exact G.
    + apply split_at_app. eapply split_at_hset; [exact G|exact S].
  - intros it o q h c (l & sv & j & -> & G & S & IS & SP) _. unfold words_config. destruct c as [c|].
    + destruct (runes_val_rep nils (Middle c)) as (m & -> & Rm). destruct (runes_val_rep nils (Leading c)) as (le & -> & Rl).
      set (jo := ("Joiners", [("Middle", VRunes m); ("Leading", VRunes le)]) : object).
      assert (G' : hget l (h ++ [jo]) = Some (iter_obj o sv it)) by (rewrite hget_app by (eapply hget_bound; exact G); exact G).
      pose proof (call_Joiners n (5 + k) o sv it (Some c) (Some (length h)) l (h ++ [jo]) IS G') as CJ.
      eexists. split; [|].
      * rewrite exec_expr. cbn. unfold alloc. cbn in CJ. fold jo. rewrite CJ. cbn. reflexivity.
      * exists l, (VMethod (VPtr "Joiners" (Some (length h))) "splitFunc"), (Some c). repeat split.
        -- apply hget_hset. eapply hget_bound; exact G'.
        -- right; left. exists (Some c), (Some (length h)). repeat split. eapply joiner_hset; [exact G'|]. exists m, le. repeat split; try assumption. exact (hget_new h jo).
    + pose proof (call_Joiners n (5 + k) o sv it None None l h IS G) as CJ. rewrite <- call_Joiners_nil in CJ.
      eexists. split.
      * rewrite exec_expr. cbn. cbn in CJ. rewrite CJ. reflexivity.
      * exists l, (VMethod (VPtr "Joiners" None) "splitFunc"), None. repeat split.
        -- apply hget_hset. eapply hget_bound; exact G.
        -- right; left. exists None, None. repeat split.
Qed.
Lemma words_is_split : program_is_split splitFunc pw "splitFunc" 5.
Proof.
  intros str max n k0 [o d] e h (S & Q & L) M R K. destruct (Nat.le_exists_sub _ _ K) as (k & -> & _). rewrite Nat.add_comm. cbn [fst snd] in *.
  destruct (split_total _ (w_split_ok (Some {| Middle := []; Leading := [] |})) d e) as (r & E). exists r, (h ++ [no_joiners]). split; [exact E|]. unfold text_val. cbn [fst snd]. apply (call_splitFunc n k); [exact Q|lia|lia|exact E].
Qed.
Lemma words_is_numeric : program_is_test BleveNumeric pw "BleveNumeric" 4.
Proof.
  intros max n k0 [o d] h (S & Q & L) M R K. destruct (Nat.le_exists_sub _ _ K) as (k & -> & _). rewrite Nat.add_comm. cbn [fst snd] in *.
  destruct (BleveFacts.numeric_correct d) as (b & E & _). exists b. split; [exact E|]. unfold text_val; cbn [fst snd]. apply (call_numeric n k); [lia|lia|exact E].
Qed.
Lemma words_is_ideographic : program_is_test BleveIdeographic pw "BleveIdeographic" 4.
Proof.
  intros max n k0 [o d] h (S & Q & L) M R K. destruct (Nat.le_exists_sub _ _ K) as (k & -> & _). rewrite Nat.add_comm. cbn [fst snd] in *.
  destruct (BleveFacts.ideographic_correct d) as (b & E & _). exists b. split; [exact E|]. unfold text_val; cbn [fst snd]. apply (call_ideographic n (1 + k)); [lia|lia|exact E].
Qed.
