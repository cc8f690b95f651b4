(** A token cut out of its text is a token: the iterators. *)
From Verif Require Import Base ListFacts Trie Engine EngineMore Lk SpecIter SpecApi Drive ApiFacts ApiInst JoinersFacts SpecJoiners Trunc.
From Verif Require GraphemesEngine GraphemesConform GraphemesIter Graphemes Words WordsIter WordsEngine WordsCut Sentences SentencesEngine SentencesCut Phrases PhrasesEngine PhrasesCut.

(** What a split function finds at the front, it finds again when there is nothing else. *)
Definition cuts_clean (f : splitfun) : Prop := forall d n, d <> [] -> f d true = Ok (e_done n (firstn n d)) -> f (firstn n d) true = Ok (e_done n (firstn n d)).

Lemma g_cut_split : cuts_clean Graphemes.splitFunc.
Proof.
  intros d n Hd H. rewrite <- GraphemesEngine.g_split_engine in H |- *.
  apply (cut_split GraphemesEngine.GE GraphemesEngine.g_mu g_lk g_lk GraphemesEngine.g_rules_ok); auto; [|exact GraphemesConform.g_FU].
  intros st v x w adv st' fuel k Hx Hl Hw Hr _ _. change (e_rules GraphemesEngine.GE) with GraphemesEngine.g_erules in *. unfold GraphemesEngine.g_erules in *. cbv zeta in *.
  destruct (Graphemes.g_rules _ _ _ _ _); [|discriminate]. injection Hr as <- <-. split; [lia|]. auto.
Qed.

Lemma alnum_run_firstn : forall d k, Words.alnum_run (firstn k d) = Nat.min k (Words.alnum_run d).
Proof.
  induction d as [|b d IH]; intros [|k]; cbn [firstn Words.alnum_run]; try reflexivity; try lia.
  destruct (Words.isASCIIAlphanumeric b); [rewrite IH; lia|lia].
Qed.
Lemma w_isplit_cut : forall f, cuts_clean f -> (forall d, d <> [] -> exists n, 0 < n <= length d /\ f d true = Ok (e_done n (firstn n d))) -> cuts_clean (WordsIter.w_isplit f).
Proof.
  intros f Hf TOT d n Hd H. unfold WordsIter.w_isplit in *. destruct d as [|b s]; [congruence|].
  assert (Hn : 0 < n <= length (b :: s)).
  { destruct (WordsIter.hot_run (b :: s)) as [k|] eqn:E.
    - injection H as H _. apply Nat2Z.inj in H. subst n. exact (WordsIter.hot_run_le _ _ E).
    - destruct (TOT (b :: s) ltac:(discriminate)) as (n0 & Hn0 & H0). rewrite H in H0. injection H0 as H0 _. apply Nat2Z.inj in H0. subst n0. exact Hn0. }
  destruct n as [|n]; [lia|]. destruct (WordsIter.hot_run (firstn (S n) (b :: s))) as [k'|] eqn:EH.
  - (* the token is a run, whole: otherwise the same run would have been found in the text *)
    destruct (Nat.eq_dec k' (S n)) as [->|Hne]. { f_equal. f_equal. rewrite firstn_firstn. f_equal. lia. }
    exfalso. pose proof (WordsIter.hot_run_le _ _ EH) as Hk'. rewrite firstn_length in Hk'. unfold WordsIter.hot_run in H, EH. cbn [firstn] in EH.
    destruct (Words.isASCIIAlphanumeric b); [|discriminate]. cbn [skipn] in H, EH. cbn [length] in Hn.
    rewrite alnum_run_firstn in EH. rewrite skipn_firstn_comm in EH.
    destruct (Nat.le_gt_cases n (Words.alnum_run s)) as [Hc|Hc].
    { rewrite Nat.min_l in EH by exact Hc. rewrite Nat.sub_diag in EH. cbn [firstn] in EH. injection EH as <-. congruence. }
    rewrite Nat.min_r in EH by lia. destruct (skipn (Words.alnum_run s) s) as [|b' r] eqn:ES.
    { apply (f_equal (@length N)) in ES. rewrite skipn_length in ES. cbn in ES. lia. }
    destruct (n - Words.alnum_run s) as [|m] eqn:EM; [lia|]. cbn [firstn] in EH. destruct (b' =? 0x20)%N; [|discriminate].
    injection EH as <-. injection H as H _. apply (f_equal Pos.to_nat) in H. rewrite !SuccNat2Pos.id_succ in H. lia.
  - destruct (WordsIter.hot_run (b :: s)) as [k|] eqn:E; [|apply Hf; [discriminate|exact H]].
    exfalso. pose proof (f_equal (fun x => match x with Ok o => so_advance o | _ => 0%Z end) H) as HZ. cbn beta iota delta [e_done so_advance] in HZ. apply Nat2Z.inj in HZ. subst k. unfold WordsIter.hot_run in E, EH. cbn [firstn] in EH.
    destruct (Words.isASCIIAlphanumeric b); [|discriminate]. cbn [skipn] in E, EH. rewrite alnum_run_firstn, skipn_firstn_comm in EH.
    assert (EN : n = Words.alnum_run s). { destruct (skipn (Words.alnum_run s) s) as [|b' r]; [|destruct (b' =? 0x20)%N; [|discriminate]]; injection E as E; lia. }
    subst n. rewrite Nat.min_id, Nat.sub_diag in EH. cbn [firstn] in EH. discriminate.
Qed.

Section Retok.
  Context {A : api} {K : Type} {data : It A -> bytes} {pos start : It A -> nat} {kof : It A -> K -> Prop} {f : K -> splitfun} {newK : K} {cfgK : Cfg A -> K -> K}.
  Hypothesis AO : api_ok A data pos start kof f newK cfgK.
  Lemma in_cut : forall g d l, tokens_by g d l -> cuts_clean g -> forall t, In t l -> t <> [] /\ g t true = Ok (e_done (length t) t).
  Proof.
    intros g d l H Hg. induction H as [|d n l Hs Hn _ IH]; intros t Ht; [contradiction|]. destruct Ht as [<-|Ht]; [|apply IH; exact Ht].
    assert (Hd : d <> []) by (destruct d; [cbn in Hn; lia|discriminate]). split; [apply firstn_nonnil; [exact Hd|lia]|].
    rewrite (Hg d n Hd Hs). rewrite firstn_length, Nat.min_l by lia. reflexivity.
  Qed.
  Lemma retokenise : forall k, cuts_clean (f k) -> (forall d, d <> [] -> exists n, 0 < n <= length d /\ f k d true = Ok (e_done n (firstn n d))) ->
    forall it it' fuel l t, kof it k -> kof it' k -> pos it' = 0 -> data it' = t -> length (data it) < fuel -> tokens A fuel it = Ok l -> In t l -> tokens A fuel it' = Ok [t].
  Proof.
    intros k Hc WB it it' fuel l t Hk Hk' Hp Hd Hf Hl Ht. unfold tokens in *.
    destruct (collect_chop (ao_next _ _ _ _ _ _ _ _ AO k) fuel it (S (length (data it))) Hk) as (l1 & H1 & HC); try lia. rewrite Hl in H1. injection H1 as <-.
    assert (HB : tokens_by (f k) (skipn (pos it) (data it)) l) by (eapply by_chop; [exact WB| |exact HC]; rewrite skipn_length; lia).
    destruct (in_cut _ _ _ HB Hc t Ht) as (Hne & HT).
    assert (HLT : length t <= length (data it)).
    { clear - HB Ht. assert (X : length t <= length (skipn (pos it) (data it))). { revert Ht. induction HB as [|d n l Hs Hn _ IH]; intros Ht; [contradiction|]. destruct Ht as [<-|Ht]; [rewrite firstn_length; lia|]. specialize (IH Ht). rewrite skipn_length in IH. lia. }
      rewrite skipn_length in X. lia. }
    destruct (collect_chop (ao_next _ _ _ _ _ _ _ _ AO k) fuel it' (S (length t)) Hk') as (l2 & H2 & HC2); try (rewrite Hd, Hp; lia). rewrite H2. f_equal. rewrite Hd, Hp in HC2. cbn [skipn chop] in HC2.
    rewrite (is_nil_false _ Hne), HT in HC2. cbn [bind e_done so_token so_advance] in HC2. rewrite Nat2Z.id, skipn_all in HC2.
    destruct t; [congruence|]. cbn [length chop is_nil bind] in HC2. injection HC2 as <-. reflexivity.
  Qed.
End Retok.
