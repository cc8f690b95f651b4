(** From any sequence of uses (C53 to C55) to the client's loop. *)
From Coq Require Import String.
From Verif Require Import SpecIter SpecApi SpecUtf8 SpecRules.
From Verif Require ApiFacts.
From Verif Require Import Base GoSyntax GoSem SpecCode SpecCodeText.
Local Open Scope string_scope.
Local Open Scope list_scope.

Section Tokens.
  Variables (A : api) (p : program) (least : nat) (config : program -> nat -> nat -> val -> Cfg A -> heap -> out heap).
  Hypothesis least7 : (least <= 7)%nat.
  Hypothesis PM : program_is_model A p least config.

  Fixpoint loop_uses (k : nat) : list (use (Cfg A)) := match k with O => [UNext] | S k => UNext :: UValue :: loop_uses k end.
  Fixpoint loop_res (o : origin) (l : list bytes) : list (list val) := match l with [] => [[VBool false]] | v :: l => [VBool true] :: [VData o v] :: loop_res o l end.
  Lemma model_loop : forall fuel o it toks, tokens A fuel it = Ok toks -> model_uses A (loop_uses (length toks)) o it = Ok (loop_res o toks) /\ (length toks < fuel)%nat.
  Proof.
    unfold tokens. induction fuel as [|fuel IH]; intros o it toks H; [discriminate|]. cbn [collect] in H. destruct (a_next A it) as [[b it']| |] eqn:E; try discriminate. cbn [bind] in H.
    destruct b.
    - destruct (a_value A it') as [v| |] eqn:V; try discriminate. cbn [bind] in H. destruct (collect _ _ fuel it') as [l| |] eqn:L; try discriminate. injection H as <-.
      destruct (IH o it' l L) as [IH1 IH2]. cbn [length loop_uses model_uses model_use bind loop_res]. rewrite E. cbn [bind]. rewrite V. cbn [bind]. rewrite IH1. cbn [bind]. split; [reflexivity|lia].
    - injection H as <-. cbn. rewrite E. cbn. split; [reflexivity|lia].
  Qed.
  Lemma go_loop_uses : forall n k o toks q h fuel, go_uses A p n k (config p n k) (loop_uses (length toks)) q h = Done (loop_res o toks) -> (length toks < fuel)%nat ->
    go_loop p n k fuel q h = Done (map (VData o) toks).
  Proof.
    intros n k o. induction toks as [|v toks IH]; intros q h [|fuel] H L; try lia; cbn [length loop_uses go_uses go_use loop_res] in H; cbn [go_loop].
    - destruct (method _ _ _ "Next" q [] h) as [[vs h']| | |]; try discriminate. cbn [obind] in *. injection H as ->. reflexivity.
    - destruct (method _ _ _ "Next" q [] h) as [[vs h']| | |]; try discriminate. cbn [obind] in *.
      destruct (method _ _ _ "Value" q [] h') as [[ws h2]| | |]; try discriminate. cbn [obind] in *.
      destruct (go_uses _ _ _ _ _ (loop_uses (length toks)) q h2) as [l| | |] eqn:G; try discriminate. cbn [obind] in *. injection H as -> -> ->.
      rewrite (IH q h2 fuel G ltac:(cbn in L; lia)). reflexivity.
  Qed.
  Definition conf_uses (cs : list (Cfg A)) : list (use (Cfg A)) := map UConfig cs.
  Lemma model_conf : forall cs us o it r, model_uses A us o (fold_left (a_config A) cs it) = Ok r -> model_uses A (conf_uses cs ++ us) o it = Ok (map (fun _ => []) cs ++ r).
  Proof.
    induction cs as [|c cs IH]; intros us o it r H; [exact H|]. cbn [conf_uses map app model_uses model_use bind]. change (map UConfig cs) with (conf_uses cs). rewrite (IH us o (a_config A it c) r H). reflexivity.
  Qed.
  Lemma go_conf : forall n k cs us q h r, go_uses A p n k (config p n k) (conf_uses cs ++ us) q h = Done (map (fun _ => []) cs ++ r) ->
    exists h', go_configs (config p n k) cs q h = Done h' /\ go_uses A p n k (config p n k) us q h' = Done r.
  Proof.
    intros n k. induction cs as [|c cs IH]; intros us q h r H; [exists h; split; [reflexivity|exact H]|]. cbn [conf_uses map app go_uses go_use] in H. cbn [go_configs].
    destruct (config p n k q c h) as [h'| | |]; try discriminate. cbn [obind] in *. change (map UConfig cs) with (conf_uses cs) in H.
    destruct (go_uses _ _ _ _ _ (conf_uses cs ++ us) q h') as [l| | |] eqn:G; try discriminate. injection H as ->. now apply IH.
  Qed.
  Lemma tokens_run : forall t n k fuel cs h toks, runs t n k fuel -> tokens A fuel (fold_left (a_config A) cs (a_new A (snd t))) = Ok toks ->
    go_tokens p n k (config p n k) fuel cs t h = Done (map (VData (fst t)) toks).
  Proof.
    intros [o d] n k fuel cs h toks (R1 & R2 & R3 & R4 & R5) H. cbn [fst snd] in *. destruct (model_loop fuel o _ toks H) as [ML FL].
    apply model_conf in ML. unfold go_tokens.
    destruct (PM (is_string o) (length d) n k (o, d) (conf_uses cs ++ loop_uses (length toks)) h) as (l & E1 & E2); try assumption; try lia.
    - repeat split; [exact R1|cbn; lia].
    - apply Forall_app. split; [apply Forall_map; apply Forall_forall; intros; exact I|]. clear. induction (length toks); repeat constructor; assumption.
    - unfold model_client in E1. cbn [fst snd] in E1. rewrite ML in E1. injection E1 as <-. unfold go_client in E2. cbn [fst snd] in *.
      destruct (call p n k _ [text_val (o, d)] h) as [[vs h']| | |]; try discriminate. cbn [obind] in *. destruct vs as [|q [|]]; try discriminate.
      destruct (go_conf _ _ _ _ _ _ _ E2) as (h2 & G1 & G2). rewrite G1. cbn [obind]. eapply go_loop_uses; eassumption.
  Qed.
End Tokens.

Lemma collect_more : forall {It O} (next : It -> res (bool * It)) (obs : It -> res O) fuel fuel' it l, collect next obs fuel it = Ok l -> fuel <= fuel' -> collect next obs fuel' it = Ok l.
Proof.
  intros It O next obs. induction fuel as [|fuel IH]; intros [|fuel'] it l H L; try discriminate; try lia. cbn [collect] in *. destruct (next it) as [[[|] it']| |]; try discriminate; cbn [bind] in *; [|exact H].
  destruct (obs it'); try discriminate. cbn [bind] in *. destruct (collect next obs fuel it') as [r| |] eqn:E; try discriminate. rewrite (IH fuel' it' r E ltac:(lia)). exact H.
Qed.
Lemma spans_tokens : forall A fuel it l, spans_of A fuel it = Ok l -> tokens A fuel it = Ok (texts l).
Proof.
  intros A. unfold spans_of, tokens. induction fuel as [|fuel IH]; intros it l H; [discriminate|]. cbn [collect] in *. destruct (a_next A it) as [[[|] it']| |]; try discriminate; cbn [bind] in *; [|injection H as <-; reflexivity].
  unfold observe at 1 in H. destruct (a_value A it') as [v| |]; try discriminate. cbn [bind] in *. destruct (collect _ _ fuel it') as [r| |] eqn:E; try discriminate. rewrite (IH it' r E). cbn [bind] in *. injection H as <-. reflexivity.
Qed.
Lemma history_configs : forall A cs it, history A (map CConfig cs) it = Ok (fold_left (a_config A) cs it).
Proof. intros A. induction cs as [|c cs IH]; intros it; [reflexivity|]. cbn [map history do_call bind fold_left]. apply IH. Qed.
Lemma configs_configs : forall A cs, configs_of A (map CConfig cs) = map CConfig cs.
Proof. intros A. induction cs as [|c cs IH]; [reflexivity|]. cbn [map configs_of]. now rewrite IH. Qed.
Section Lossless.
  Context {A : api} {K : Type} {data : It A -> bytes} {pos start : It A -> nat} {kof : It A -> K -> Prop} {f : K -> splitfun} {newK : K} {cfgK : Cfg A -> K -> K}.
  Hypothesis AO : ApiFacts.api_ok A data pos start kof f newK cfgK.
  Variables (p : program) (least : nat) (config : program -> nat -> nat -> val -> Cfg A -> heap -> out heap).
  Hypothesis least7 : (least <= 7)%nat.
  Hypothesis PM : program_is_model A p least config.
  Lemma lossless_run : text_lossless p config.
  Proof.
    intros t cs n k fuel h R.
    destruct (ApiFacts.total_lossless AO (map CConfig cs) (snd t) (fold_left (a_config A) cs (a_new A (snd t)))) as (l & E & _ & E2 & E3 & _).
    { rewrite configs_configs. apply history_configs. }
    exists (texts l). split; [|auto]. eapply (tokens_run A p least config least7 PM); [exact R|]. apply spans_tokens in E. eapply collect_more; [exact E|]. destruct R as (_ & _ & _ & _ & R). lia.
  Qed.
End Lossless.
Lemma conform_run : forall A p least config decides, least <= 7 -> program_is_model A p least config ->
  (forall cps fuel, scalars cps -> length (encode cps) < fuel -> exists segs, tokens A fuel (a_new A (encode cps)) = Ok (map encode segs) /\ segmentation decides cps segs) ->
  text_conforms decides p config.
Proof.
  intros A p least config decides L PM H t cps n k fuel h S E R. destruct (H cps fuel S) as (segs & H1 & H2). { rewrite <- E. apply R. }
  exists segs. split; [|exact H2]. rewrite <- map_map. apply (tokens_run A p least config L PM t n k fuel [] h); [exact R|]. cbn. rewrite E. exact H1.
Qed.
