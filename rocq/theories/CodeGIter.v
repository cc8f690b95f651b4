(** The text of graphemes/iterator.go, run, does what the model says. *)
From Coq Require Import String.
From Verif Require Import Base Trie GoSyntax GoSem GoFacts ProgGraphemes TableGraphemes Ansi AnsiFacts Engine Lk Graphemes CodeGBase CodeGSplit CodeGAnsi.
Local Open Scope string_scope.
Local Open Scope list_scope.

(** graphemes/iterator.go:25-42: an iterator in memory. *)
Definition iter_obj (o : origin) (it : iter) : object :=
  ("Iterator", [("split", VFun "splitFunc"); ("data", VData o (it_data it)); ("pos", vint (it_pos it)); ("start", vint (it_start it));
                ("AnsiEscapeSequences", VBool (it_ansi7 it)); ("AnsiEscapeSequences8Bit", VBool (it_ansi8 it))]).

Section Calls.
  Variable C : fid -> list val -> heap -> out (list val * heap).
  Variable n : nat.
  Hypothesis C_ansi : forall o d h, (length d < n)%nat -> (Z.of_nat (length d) < 2 ^ 62)%Z -> C ("", "ansiEscapeLength") [VData o d] h = Done ([VInt (Typed "int" I64) (Z.of_nat (ansiEscapeLength d))], h).
  Hypothesis C_ansi8 : forall o d h, (length d < n)%nat -> (Z.of_nat (length d) < 2 ^ 62)%Z -> C ("", "ansiEscapeLength8Bit") [VData o d] h = Done ([VInt (Typed "int" I64) (Z.of_nat (ansiEscapeLength8Bit d))], h).
  Hypothesis C_split : forall o d e r h, (o = NilBytes -> d = []) -> (length d < n)%nat -> (Z.of_nat (length d) < 2 ^ 62)%Z -> splitFunc d e = Ok r -> C ("", "splitFunc") [VData o d; VBool e] h = Done (out_vals o r, h).

  Ltac mem M B := repeat first [step | rewrite M; bi | rewrite hget_hset by exact B; bi | rewrite hset_hset ].
  Ltac norm := rewrite ?of_N_eqb, ?of_N_eqb_pos, ?of_N_ltb_pos, ?of_N_leb_pos, ?pos_leb_of_N, ?of_nat_ltb, ?of_nat_leb, ?of_nat_ltb_pos, ?if_tf, ?if_hit, ?if_hit2, ?if_or, ?if_and; bi.
  Ltac start it M B H := pose proof (hget_bound _ _ _ M) as B; unfold iter_obj, vint, tint in M; destruct it as [d pos start a7 a8];
    cbn [it_data it_pos it_start it_ansi7 it_ansi8 with_pos] in *.
  Definition tail (k : nat) (c : N) (l : nat) (h : heap) : out (list val * heap) :=
    finish pg f_Next (block pg C n (skipn k (fd_body f_Next)) [[("b", VInt (Typed "uint8" U8) (Z.of_N c)); ("iter", VPtr "Iterator" (Some l))]; []] h).
  Ltac open k := unfold tail; let x := eval cbv in (skipn k (fd_body f_Next)) in change (skipn k (fd_body f_Next)) with x.
  Ltac ends H := injection H as <- <-; repeat step; rewrite ?wrap_succ by lia; repeat step; try reflexivity; unfold iter_obj, vint, tint; cbn [with_pos it_data it_pos it_start it_ansi7 it_ansi8]; repeat f_equal; lia.
  Definition fine (o : origin) (it : iter) : Prop :=
    (o = NilBytes -> it_data it = []) /\ (length (it_data it) < n)%nat /\ (Z.of_nat (length (it_data it)) < 2 ^ 62)%Z.

  Lemma split_bound : forall d e r, splitFunc d e = Ok r -> (0 <= so_advance r <= Z.of_nat (length d))%Z.
  Proof.
    intros d e r H. unfold splitFunc in H. destruct (is_nil d); [injection H as <-; cbn; lia|].
    unfold slice_from in H. cbn [Nat.ltb Nat.leb bind] in H. change (length d <? 0)%nat with false in H. cbn [bind] in H.
    destruct (graphemes_lookup (skipn 0 d)) as [[cur w]| |]; try discriminate. cbn [bind] in H.
    destruct (w =? 0)%nat.
    - destruct (negb e); [injection H as <-; cbn; lia|]. destruct (slice_to d (length d)); try discriminate. injection H as <-. cbn. lia.
    - destruct (g_loop _ _ _ _) as [[pos|]| |]; try discriminate; cbn [bind] in H; [|injection H as <-; cbn; lia].
      unfold slice_to in H. destruct (Nat.ltb_spec (length d) pos); [discriminate|]. injection H as <-. cbn. lia.
  Qed.
  Lemma next_split_run : forall o it b it' c l h, fine o it -> (it_pos it < length (it_data it))%nat -> hget l h = Some (iter_obj o it) -> next_split it = Ok (b, it') ->
    tail 6 c l h = Done ([VBool b], hset l (iter_obj o it') h).
  Proof.
    intros o it b it' c l h (O & N & D) P M H. start it M B H. open 6%nat. unfold next_split in H. cbn [it_data it_pos it_start] in H.
    unfold slice_from in H. assert (L : (length d <? pos)%nat = false) by (apply Nat.ltb_ge; lia). rewrite L in H. cbn [bind] in H.
    destruct (splitFunc (skipn pos d) true) as [r| |] eqn:E; try discriminate. cbn [bind] in H.
    mem M B. rewrite cut_from by lia. mem M B. erewrite C_split; [|intros F; rewrite (O F); now destruct pos|rewrite skipn_length; lia|rewrite skipn_length; lia|exact E].
    unfold out_vals. destruct (so_err r); [discriminate|]. cbn [err_val]. mem M B. pose proof (split_bound _ _ _ E) as A. rewrite skipn_length in A.
    destruct (so_advance r <=? 0)%Z; [discriminate|]. mem M B. rewrite wrap_int by lia. rewrite <- (Z2Nat.id (so_advance r)) by lia. rewrite <- Nat2Z.inj_add. mem M B. rewrite of_nat_ltb.
    destruct (length d <? pos + Z.to_nat (so_advance r))%nat; [discriminate|]. ends H.
  Qed.
  Lemma next_ascii_run : forall o it b it' c l h, fine o it -> (it_pos it < length (it_data it))%nat -> hget l h = Some (iter_obj o it) -> next_ascii it c = Ok (b, it') ->
    tail 5 c l h = Done ([VBool b], hset l (iter_obj o it') h).
  Proof.
    intros o it b it' c l h F P M H. pose proof (fun H => next_split_run o it b it' c l h F P M H) as K. destruct F as (O & N & D).
    start it M B H. unfold tail in K. open 5%nat. unfold next_ascii in H. cbn [it_data it_pos it_start] in H.
    mem M B. norm. mem M B. unfold cr in H |- *. norm. destruct ((c <? 128) && negb (c =? 13))%N; [|repeat step; exact (K H)].
    mem M B. rewrite wrap_succ by lia. norm. mem M B. replace (pos + 1)%nat with (S pos) in H by lia.
    destruct (length d <=? S pos)%nat eqn:L; [mem M B; ends H|].
    unfold byte_at in H. destruct (nth_error d (S pos)) as [c'|] eqn:E; [|discriminate]. cbn [bind] in H.
    rewrite (index_at _ _ _ _ E). unfold tbyte. bi. norm. mem M B. destruct (c' <? 128)%N; [mem M B; ends H|]. repeat step. exact (K H).
  Qed.
  Lemma next_ansi8_run : forall o it b it' c l h, fine o it -> (it_pos it < length (it_data it))%nat -> hget l h = Some (iter_obj o it) -> next_ansi8 it c = Ok (b, it') ->
    tail 4 c l h = Done ([VBool b], hset l (iter_obj o it') h).
  Proof.
    intros o it b it' c l h F P M H. pose proof (fun H => next_ascii_run o it b it' c l h F P M H) as K. destruct F as (O & N & D).
    start it M B H. unfold tail in K. open 4%nat. unfold next_ansi8 in H. cbn [it_data it_pos it_start it_ansi7 it_ansi8] in H.
    mem M B. norm. mem M B. norm. rewrite andb_assoc in H. destruct (a8 && (128 <=? c)%N && (c <=? 159)%N); [|repeat step; exact (K H)].
    unfold slice_from in H. assert (L : (length d <? pos)%nat = false) by (apply Nat.ltb_ge; lia). rewrite L in H. cbn [bind] in H.
    mem M B. rewrite cut_from by lia. mem M B. pose proof (ansiEscapeLength8Bit_le (skipn pos d)) as A. rewrite skipn_length in A. rewrite C_ansi8 by (rewrite skipn_length; lia). bi. mem M B.
    change 0%Z with (Z.of_nat 0). norm. destruct (0 <? ansiEscapeLength8Bit (skipn pos d))%nat; [|repeat step; exact (K H)].
    mem M B. rewrite wrap_add by lia. ends H.
  Qed.
  Lemma Next_run : forall o it b it' l h, fine o it -> hget l h = Some (iter_obj o it) -> Next it = Ok (b, it') ->
    run_fun pg C n f_Next [VPtr "Iterator" (Some l)] h = Done ([VBool b], hset l (iter_obj o it') h).
  Proof.
    intros o it b it' l h F M H. erewrite run_fun_finish by reflexivity. cbn [fd_body f_Next].
    pose proof M as M0. destruct it as [d pos start a7 a8].
    pose proof (hget_bound _ _ _ M) as B; unfold iter_obj, vint, tint in M; cbn [it_data it_pos it_start it_ansi7 it_ansi8 with_pos] in *.
    unfold Next in H. cbn [it_data it_pos it_start it_ansi7 it_ansi8] in H. mem M B. rewrite of_nat_leb.
    destruct (length d <=? pos)%nat eqn:L. { injection H as <- <-. repeat step. rewrite hset_same by exact M0. reflexivity. }
    apply Nat.leb_gt in L. cbn [with_pos it_data it_pos it_start it_ansi7 it_ansi8] in H. unfold byte_at in H. destruct (nth_error d pos) as [c|] eqn:E; [|discriminate]. cbn [bind] in H.
    mem M B. rewrite (index_at _ _ _ _ E). unfold tbyte. mem M B. norm. mem M B. set (it := with_pos _ _ _) in H.
    pose proof (fun H => next_ansi8_run o it b it' c l (hset l (iter_obj o it) h) F L (hget_hset _ _ _ B) H) as K. rewrite hset_hset in K. destruct F as (O & N & D). cbn [it_data] in *.
    change (it_ansi7 it) with a7 in H. destruct (a7 && (c =? esc)%N); [|repeat step; exact (K H)].
    unfold slice_from in H. assert (L' : (length d <? pos)%nat = false) by (apply Nat.ltb_ge; lia). rewrite L' in H. cbn [bind] in H.
    mem M B. rewrite cut_from by lia. mem M B. pose proof (ansiEscapeLength_le (skipn pos d)) as A. rewrite skipn_length in A. rewrite C_ansi by (rewrite skipn_length; lia). bi. mem M B.
    change 0%Z with (Z.of_nat 0). norm. destruct (0 <? ansiEscapeLength (skipn pos d))%nat; [|repeat step; exact (K H)].
    mem M B. rewrite wrap_add by lia. ends H.
  Qed.
  Ltac whole M f := erewrite run_fun_finish by reflexivity; cbn [fd_body f]; pose proof (hget_bound _ _ _ M) as B; unfold iter_obj, vint, tint in M.
  Lemma Value_run : forall o it v l h, hget l h = Some (iter_obj o it) -> Value it = Ok v -> run_fun pg C n f_Value [VPtr "Iterator" (Some l)] h = Done ([VData o v], h).
  Proof.
    intros o it v l h M H. whole M f_Value. mem M B. unfold Value, slice in H. destruct ((it_pos it <? it_start it)%nat || (length (it_data it) <? it_pos it)%nat) eqn:E; [discriminate|].
    apply orb_false_elim in E. destruct E as [E1 E2]. apply Nat.ltb_ge in E1. apply Nat.ltb_ge in E2. rewrite cut_mid by assumption. mem M B. injection H as <-. reflexivity.
  Qed.
  Lemma Start_run : forall o it l h, hget l h = Some (iter_obj o it) -> run_fun pg C n f_Start [VPtr "Iterator" (Some l)] h = Done ([vint (Start it)], h).
  Proof. intros o it l h M. whole M f_Start. mem M B. reflexivity. Qed.
  Lemma End_run : forall o it l h, hget l h = Some (iter_obj o it) -> run_fun pg C n f_End [VPtr "Iterator" (Some l)] h = Done ([vint (End_ it)], h).
  Proof. intros o it l h M. whole M f_End. mem M B. reflexivity. Qed.
  Lemma Reset_run : forall o it l h, hget l h = Some (iter_obj o it) -> run_fun pg C n f_Reset [VPtr "Iterator" (Some l)] h = Done ([], hset l (iter_obj o (Reset it)) h).
  Proof. intros o it l h M. whole M f_Reset. mem M B. reflexivity. Qed.
  Lemma SetText_run : forall o it o' d l h, hget l h = Some (iter_obj o it) -> run_fun pg C n f_SetText [VPtr "Iterator" (Some l); VData o' d] h = Done ([], hset l (iter_obj o' (SetText it d)) h).
  Proof. intros o it o' d l h M. whole M f_SetText. mem M B. reflexivity. Qed.
  Lemma FromString_run : forall d h, run_fun pg C n f_FromString [VData Str d] h = Done ([VPtr "Iterator" (Some (length h))], h ++ [iter_obj Str (FromBytes d)]).
  Proof. intros. erewrite run_fun_finish by reflexivity; cbn [fd_body f_FromString]. repeat step. reflexivity. Qed.
  Lemma FromBytes_run : forall o d h, run_fun pg C n f_FromBytes [VData o d] h = Done ([VPtr "Iterator" (Some (length h))], h ++ [iter_obj o (FromBytes d)]).
  Proof. intros. erewrite run_fun_finish by reflexivity; cbn [fd_body f_FromBytes]. repeat step. reflexivity. Qed.

  Hypothesis C_Next : forall o it b it' l h, fine o it -> hget l h = Some (iter_obj o it) -> Next it = Ok (b, it') ->
    C ("Iterator", "Next") [VPtr "Iterator" (Some l)] h = Done ([VBool b], hset l (iter_obj o it') h).
  Hypothesis C_Value : forall o it v l h, hget l h = Some (iter_obj o it) -> Value it = Ok v -> C ("Iterator", "Value") [VPtr "Iterator" (Some l)] h = Done ([VData o v], h).
  Lemma First_run : forall o it v it' l h, fine o it -> hget l h = Some (iter_obj o it) -> First it = Ok (v, it') ->
    it' = it /\ exists g, run_fun pg C n f_First [VPtr "Iterator" (Some l)] h = Done ([VData o v], h ++ g).
  Proof.
    intros o it v it' l h F M H. pose proof M as M0. whole M f_First. unfold First in H. 
    destruct (length (it_data it) =? 0)%nat eqn:Z0. { injection H as <- <-. split; [reflexivity|]. exists []. mem M B. rewrite of_nat_eqb0, Z0. mem M B. rewrite app_nil_r. reflexivity. }
    destruct (Next _) as [[b cp]| |] eqn:E in H; try discriminate. cbn [bind] in H. destruct (Value cp) as [w| |] eqn:V; try discriminate. injection H as <- <-.
    split; [reflexivity|]. exists [iter_obj o cp]. mem M B. rewrite of_nat_eqb0, Z0. mem M B.
    repeat first [rewrite hget_new; bi; mem M B | rewrite hset_new; bi; mem M B].
    erewrite (C_Next o (with_pos it 0 0)); [|exact F|rewrite hget_new; reflexivity|exact E]. mem M B. rewrite hset_new.
    erewrite C_Value; [|rewrite hget_new; reflexivity|exact V]. mem M B. reflexivity.
  Qed.
End Calls.

(** ** The program *)
Section Linked.
  Variable n : nat.
  Notation run k := (call pg n k).
  Lemma call_S : forall k f fd vs h, find_fun f pg_funs = Some fd -> run (S k) f vs h = run_fun pg (run k) n fd vs h.
  Proof. intros k f fd vs h H. cbn [call]. change (p_funs pg) with pg_funs. rewrite H. reflexivity. Qed.
  Ltac into := cbn [Nat.add]; erewrite call_S by reflexivity.
  Lemma call_is : forall k a b h, run (S k) ("property", "is") [vp a; vp b] h = Done ([VBool (is a b)], h).
  Proof. intros. into. apply is_run. Qed.
  Lemma call_lookupValue : forall k m b v h, (b < 4294967296)%N -> lookupValue graphemesValues m b = Ok v ->
    run (S k) ("", "lookupValue") [VInt (Typed "uint32" U32) (Z.of_N m); VInt tbyte (Z.of_N b)] h = Done ([vp v], h).
  Proof. intros. into. now apply lookupValue_run. Qed.
  Lemma call_lookup : forall k o s v w h, graphemes_lookup s = Ok (v, w) -> run (S (S k)) ("", "lookup") [VData o s] h = Done ([vp v; vint w], h).
  Proof. intros. into. apply lookup_run; [|assumption]. intros. now apply call_lookupValue. Qed.
  Lemma call_splitFunc : forall k o d e r h, (o = NilBytes -> d = []) -> (length d < n)%nat -> (Z.of_nat (length d) < 2 ^ 62)%Z -> splitFunc d e = Ok r ->
    run (3 + k) ("", "splitFunc") [VData o d; VBool e] h = Done (out_vals o r, h).
  Proof. intros. into. apply splitFunc_run; try assumption; intros; [apply call_is|now apply call_lookup]. Qed.

  Section Small.
    Variables (o : origin) (d : bytes) (h : heap).
    Hypothesis N : (length d < n)%nat.
    Hypothesis D : (Z.of_nat (length d) < 2 ^ 62)%Z.
    Lemma call_csi : forall k, run (S k) ("", "csiBodyLength") [VData o d] h = Done ([vint (csiBodyLength d)], h).
    Proof. intros. into. now apply csiBodyLength_run. Qed.
    Lemma call_osc : forall k, run (S k) ("", "oscLength") [VData o d] h = Done ([VInt tint (oz (oscLength d))], h).
    Proof. intros. into. now apply oscLength_run. Qed.
    Lemma call_st : forall k, run (S k) ("", "stSequenceLength") [VData o d] h = Done ([VInt tint (oz (stSequenceLength d))], h).
    Proof. intros. into. now apply stSequenceLength_run. Qed.
    Lemma call_oscC1 : forall k, run (S k) ("", "oscLengthC1") [VData o d] h = Done ([VInt tint (oz (oscLengthC1 d))], h).
    Proof. intros. into. now apply oscLengthC1_run. Qed.
    Lemma call_stC1 : forall k, run (S k) ("", "stSequenceLengthC1") [VData o d] h = Done ([VInt tint (oz (stSequenceLengthC1 d))], h).
    Proof. intros. into. now apply stSequenceLengthC1_run. Qed.
  End Small.
  Lemma call_ansi : forall k o d h, (length d < n)%nat -> (Z.of_nat (length d) < 2 ^ 62)%Z -> run (2 + k) ("", "ansiEscapeLength") [VData o d] h = Done ([vint (ansiEscapeLength d)], h).
  Proof. intros. into. apply ansiEscapeLength_run; try assumption; intros; [now apply call_csi|now apply call_osc|now apply call_st]. Qed.
  Lemma call_ansi8 : forall k o d h, (length d < n)%nat -> (Z.of_nat (length d) < 2 ^ 62)%Z -> run (2 + k) ("", "ansiEscapeLength8Bit") [VData o d] h = Done ([vint (ansiEscapeLength8Bit d)], h).
  Proof. intros. into. apply ansiEscapeLength8Bit_run; try assumption; intros; [now apply call_csi|now apply call_oscC1|now apply call_stC1]. Qed.

  Lemma call_Next : forall k o it b it' l h, fine n o it -> hget l h = Some (iter_obj o it) -> Next it = Ok (b, it') ->
    run (4 + k) ("Iterator", "Next") [VPtr "Iterator" (Some l)] h = Done ([VBool b], hset l (iter_obj o it') h).
  Proof. intros. into. eapply Next_run; try eassumption; intros; [now apply (call_ansi (S k))|now apply (call_ansi8 (S k))|now apply call_splitFunc]. Qed.
  Lemma call_Value : forall k o it v l h, hget l h = Some (iter_obj o it) -> Value it = Ok v -> run (S k) ("Iterator", "Value") [VPtr "Iterator" (Some l)] h = Done ([VData o v], h).
  Proof. intros. into. eapply Value_run; eassumption. Qed.
  Lemma call_First : forall k o it v it' l h, fine n o it -> hget l h = Some (iter_obj o it) -> First it = Ok (v, it') ->
    it' = it /\ exists g, run (5 + k) ("Iterator", "First") [VPtr "Iterator" (Some l)] h = Done ([VData o v], h ++ g).
  Proof. intros. into. eapply First_run; try eassumption; intros; [eapply call_Next; eassumption|eapply call_Value; eassumption]. Qed.
End Linked.
