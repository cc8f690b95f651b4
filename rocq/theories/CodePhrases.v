(** Package phrases: clients of the program text get what the model says. *)
From Coq Require Import String.
From Verif Require Import SpecIter SpecApi ApiFacts ApiInst.
From Verif Require Import Base Engine GoSyntax GoSem GoFacts SpecCode CodeApi ProgPhrases Phrases PhrasesEngine CodePBase CodePSplit CodePIter.
Local Open Scope string_scope.
Local Open Scope list_scope.

Definition p_rep (it : iter) (o : origin) (q : val) (h : heap) : Prop := exists l, q = VPtr "Iterator" (Some l) /\ hget l h = Some (iter_obj o it).

Lemma phrases_is_model : program_is_model phrases_api pp 6 no_config.
Proof.
  intros str max n k0 t us h T P M R K. destruct (Nat.le_exists_sub _ _ K) as (k & -> & _). rewrite Nat.add_comm. clear K. assert (FI : forall o d, proper str max (o, d) -> forall it, it_data it = d -> fine n o it).
  { intros o d (_ & Q1 & Q2) it <-. cbn in Q1, Q2. repeat split; [exact Q1|lia|lia]. }
  eapply sim_client with (Rep := p_rep); try exact phrases_api_ok; try exact T; try exact P; unfold method; clear t us h T P.
  - intros [o d] h [S _]. cbn [fst snd] in *. unfold text_val. cbn [fst snd].
    destruct (is_string o) eqn:E; cbn [Nat.add]; erewrite call_S by reflexivity; [replace o with Str by (destruct o; try discriminate; reflexivity); rewrite FromString_run|rewrite FromBytes_run];
      do 2 eexists; (split; [reflexivity|]); eexists; (split; [reflexivity|]); exact (hget_new _ _).
  - intros it o q h b it' (l & -> & G) [W _] E. eexists. split; [eapply (call_Next n (1 + k)); [exact (FI _ _ W it eq_refl)|exact G|exact E]|].
    exists l. split; [reflexivity|]. apply hget_hset. eapply hget_bound; exact G.
  - intros it o q h v (l & -> & G) _ E. exists h. split; [eapply (call_Value n (5 + k)); eassumption|]. now exists l.
  - intros it o q h (l & -> & G). exists h. split; [cbn [Nat.add]; erewrite call_S by reflexivity; eapply Start_run; eassumption|]. now exists l.
  - intros it o q h (l & -> & G). exists h. split; [cbn [Nat.add]; erewrite call_S by reflexivity; eapply End_run; eassumption|]. now exists l.
  - intros it o q h (l & -> & G). eexists. split; [cbn [Nat.add]; erewrite call_S by reflexivity; eapply Reset_run; eassumption|]. exists l. split; [reflexivity|]. apply hget_hset. eapply hget_bound; exact G.
  - intros it o q h [o' d] (l & -> & G) _. eexists. split; [cbn [Nat.add]; erewrite call_S by reflexivity; eapply SetText_run; eassumption|]. exists l. split; [reflexivity|]. apply hget_hset. eapply hget_bound; exact G.
  - intros it o q h v it' (l & -> & G) [W _] E. destruct (call_First n k o it v it' l h (FI _ _ W it eq_refl) G E) as (-> & g & Q). eexists. split; [exact Q|].
    exists l. split; [reflexivity|]. rewrite hget_app by (eapply hget_bound; exact G). exact G.
  - intros it o q h [].
Qed.
Lemma phrases_is_split : program_is_split splitFunc pp "splitFunc" 4.
Proof.
  intros str max n k0 [o d] e h (S & Q & L) M R K. destruct (Nat.le_exists_sub _ _ K) as (k & -> & _). rewrite Nat.add_comm. cbn [fst snd] in *. destruct (split_total _ p_split_ok d e) as (r & E). exists r, h. split; [exact E|]. unfold text_val. cbn [fst snd]. apply (call_splitFunc n k); [exact Q|lia|lia|exact E].
Qed.
