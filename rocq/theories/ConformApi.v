(** From split functions to what a client of the iterator sees. *)
From Verif Require Import Base ListFacts Engine SpecIter SpecApi SpecUtf8 SpecRules Drive ApiFacts.

Lemma chop_ext : forall f g, (forall d b, f d b = g d b) -> forall n d, chop f n d = chop g n d.
Proof.
  intros f g H. induction n as [|n IH]; intros d; [reflexivity|]. cbn [chop]. rewrite H.
  destruct (is_nil d); [reflexivity|]. destruct (g d true) as [o| |]; try reflexivity. cbn [bind].
  destruct (so_token o); [|reflexivity]. rewrite IH. reflexivity.
Qed.

(** At the end of the data is all that chopping looks at. *)
Lemma chop_eof : forall f g, (forall d, f d true = g d true) -> forall n d, chop f n d = chop g n d.
Proof.
  intros f g H. induction n as [|n IH]; intros d; [reflexivity|]. cbn [chop]. rewrite H.
  destruct (is_nil d); [reflexivity|]. destruct (g d true) as [o| |]; try reflexivity. cbn [bind].
  destruct (so_token o); [|reflexivity]. rewrite IH. reflexivity.
Qed.

Lemma tokens_chop : forall A K data pos start kof (f : K -> splitfun) newK cfgK, api_ok A data pos start kof f newK cfgK ->
  forall d fuel l, length d < fuel -> chop (f newK) (S (length d)) d = Ok l -> tokens A fuel (a_new A d) = Ok l.
Proof.
  intros A K data pos start kof f newK cfgK AO d fuel l Hf Hc.
  destruct (ao_new _ _ _ _ _ _ _ _ AO d) as (Hd & Hp & _ & Hk).
  destruct (collect_chop (ao_next _ _ _ _ _ _ _ _ AO newK) fuel (a_new A d) (S (length d)) Hk) as (l' & H1 & H2); try (rewrite Hd, Hp; lia).
  rewrite Hd, Hp in H2. cbn [skipn] in H2. rewrite Hc in H2. injection H2 as <-. exact H1.
Qed.

(** "The tokens of the iterator are the segments": the client's loop ends, and yields the encodings of the segments. *)
Definition tokens_are_segments (A : api) (decides : text -> text -> op -> Prop) : Prop :=
  forall cps fuel, scalars cps -> length (encode cps) < fuel ->
    exists segs, tokens A fuel (a_new A (encode cps)) = Ok (map encode segs) /\ segmentation decides cps segs.
