(** C87: text with control sequences, as it is sent to a terminal. *)
From Verif Require Import Base SpecUtf8 SpecIter SpecApi SpecUcd SpecRules SpecAnsi SpecStyled ApiInst StyledFacts.
From Verif Require Graphemes.
Import Graphemes.
Local Open Scope N_scope.

(** Any number of pieces of text and sequences: the tokens are the graphemes of the pieces, each piece cut by itself without the options, and the sequences. *)
Theorem C87_tokens : forall a7 a8 ps z fuel, styled_ok a7 a8 ps z -> (length (styled ps z) < fuel)%nat ->
  exists l, tokens graphemes_api fuel (setAnsi (FromBytes (styled ps z)) a7 a8) = Ok l
    /\ pieced (fun c l => tokens graphemes_api fuel (FromBytes (encode c)) = Ok l) ps z l.
Proof. exact styled_tokens. Qed.
Print Assumptions C87_tokens.
(** A client who drops the tokens that begin with a control byte is left with the text, and who keeps only these has the sequences. *)
Theorem C87_strip : forall a7 a8 ps z fuel, styled_ok a7 a8 ps z -> (length (styled ps z) < fuel)%nat ->
  exists l, tokens graphemes_api fuel (setAnsi (FromBytes (styled ps z)) a7 a8) = Ok l
    /\ concat (filter (fun t => negb (control_token a7 a8 t)) l) = encode (plain ps z)
    /\ filter (control_token a7 a8) l = map snd ps.
Proof.
  intros a7 a8 ps z fuel H Hf. destruct (styled_tokens a7 a8 ps z fuel H Hf) as (l & E & P). exists l. split; [exact E|]. exact (pieced_strip a7 a8 fuel ps z l H Hf P).
Qed.
Print Assumptions C87_strip.

(** "a" in red, then "é" with a combining accent, then a title, then a flag; both options, with one 8-bit sequence *)
Definition example : list (text * bytes) := [([], [0x1B; 0x5B; 0x33; 0x31; 0x6D]); ([0x61], [0x9B; 0x30; 0x6D]); ([0x65; 0x301], [0x1B; 0x5D; 0x30; 0x3B; 0x78; 0x07])].
Example C87_case : styled_ok true true example [0x1F1EB; 0x1F1F7]
  /\ tokens graphemes_api 60 (setAnsi (FromBytes (styled example [0x1F1EB; 0x1F1F7])) true true)
     = Ok [[0x1B; 0x5B; 0x33; 0x31; 0x6D]; [0x61]; [0x9B; 0x30; 0x6D]; encode [0x65; 0x301]; [0x1B; 0x5D; 0x30; 0x3B; 0x78; 0x07]; encode [0x1F1EB; 0x1F1F7]].
Proof.
  split; [|vm_compute; reflexivity].
  assert (S : forall c, forallb (fun x => (x <? 0xD800) || (0xDFFF <? x) && (x <? 0x110000)) c = true -> existsb (N.eqb ESC) c = false -> piece true c).
  { intros c H E. split; [apply Forall_forall; intros x I; rewrite forallb_forall in H; specialize (H x I); cbv beta in H; unfold scalar; apply orb_true_iff in H as [H|H]; [apply N.ltb_lt in H|apply andb_true_iff in H as [H H']; apply N.ltb_lt in H, H']; lia|]. intros _ I. assert (X : existsb (N.eqb ESC) c = true) by (apply existsb_exists; exists ESC; split; [exact I|apply N.eqb_refl]). congruence. }
  cbn [styled_ok example]. repeat match goal with |- _ /\ _ => split | |- piece _ _ => apply S; reflexivity end.
  - left. split; [reflexivity|]. apply a7_csi. exists [0x33; 0x31], [], 0x6D. split; [reflexivity|]. split; [repeat constructor; unfold parameter; lia|]. split; [constructor|unfold final; lia].
  - right. split; [reflexivity|]. split; [apply a8_csi; exists [0x30], [], 0x6D; split; [reflexivity|]; split; [repeat constructor; unfold parameter; lia|]; split; [constructor|unfold final; lia]|].
    intros c' x E. change [0x61] with ([] ++ [0x61]) in E. apply app_inj_tail in E as [_ <-]. vm_compute. discriminate.
  - left. split; [reflexivity|]. apply a7_osc. left. exists [0x30; 0x3B; 0x78], [0x07]. split; [reflexivity|]. split; [|left; reflexivity].
    split; [cbn; unfold CAN; lia|]. split; [cbn; unfold SUB; lia|]. intros t [<-|[<-|[]]] (p1 & p2 & E); destruct p1 as [|? [|? [|? [|? p1]]]]; discriminate E.
Qed.

(** What is left is the text, but not always its graphemes: a sequence between a letter and its accent keeps them apart. *)
Theorem C87_graphemes_refuted : exists ps z l, styled_ok true false ps z /\ tokens graphemes_api 20 (setAnsi (FromBytes (styled ps z)) true false) = Ok l
  /\ tokens graphemes_api 20 (FromBytes (encode (plain ps z))) = Ok [encode (plain ps z)] /\ filter (fun t => negb (control_token true false t)) l <> [encode (plain ps z)].
Proof.
  exists [([0x65], [0x1B; 0x5B; 0x6D])], [0x301], [[0x65]; [0x1B; 0x5B; 0x6D]; [0xCC; 0x81]]. split; [|split; [vm_compute; reflexivity|]; split; [vm_compute; reflexivity|vm_compute; discriminate]].
  cbn [styled_ok]. split; [split; [constructor; [unfold scalar; lia|constructor]|intros _ [Q|[]]; discriminate Q]|]. split.
  - left. split; [reflexivity|]. apply a7_csi. exists [], [], 0x6D. split; [reflexivity|]. split; [constructor|]. split; [constructor|unfold final; lia].
  - split; [constructor; [unfold scalar; lia|constructor]|intros _ [Q|[]]; discriminate Q].
Qed.
Print Assumptions C87_graphemes_refuted.
