(** C23 - C27: control sequences as tokens of graphemes.Iterator. *)
From Verif Require Import Base SpecUtf8 SpecIter SpecApi SpecUcd SpecAnsi ApiInst AnsiCuts.
From Verif Require Graphemes.
Import Graphemes.
Local Open Scope N_scope.

(** The loop of a client over [d] with AnsiEscapeSequences = a7 and AnsiEscapeSequences8Bit = a8:
    [tokens graphemes_api fuel (setAnsi (FromBytes d) a7 a8)]. *)

(** ** C23: 7-bit sequences *)
(** A sequence at the start is a token, and the rest is cut as if it were alone. *)
Theorem C23_sequence : forall a8 e v fuel, ansi7 e v -> (length (e ++ v) < fuel)%nat -> exists l,
  tokens graphemes_api fuel (setAnsi (FromBytes v) true a8) = Ok l
  /\ tokens graphemes_api fuel (setAnsi (FromBytes (e ++ v)) true a8) = Ok (e :: l).
Proof. exact seq7. Qed.
Print Assumptions C23_sequence.
(** At every token start: the token is the sequence there, if there is one; if not, what it would be without the option. *)
Theorem C23_exact : forall a8 d fuel l1 t l2, (length d < fuel)%nat ->
  tokens graphemes_api fuel (setAnsi (FromBytes d) true a8) = Ok (l1 ++ t :: l2) ->
  (forall e v, concat (t :: l2) = e ++ v -> ansi7 e v -> t = e)
  /\ ((forall e v, concat (t :: l2) = e ++ v -> ~ ansi7 e v) ->
      exists l0, tokens graphemes_api fuel (setAnsi (FromBytes (concat (t :: l2))) false a8) = Ok (t :: l0)).
Proof. exact at_start7. Qed.
Print Assumptions C23_exact.
(** There is at most one sequence at a given place. *)
Theorem C23_unique : forall e v e' v', ansi7 e v -> ansi7 e' v' -> e ++ v = e' ++ v' -> e = e'.
Proof. exact ansi7_unique. Qed.
Print Assumptions C23_unique.
(** ESC [ 3 1 m; ESC ] 0 ; x BEL; ESC P q ESC x ESC backslash; ESC ( B; ESC 7; a title cut short by CAN.  Not one: ESC [ 3 1. *)
Example C23_csi : ansi7 [0x1B; 0x5B; 0x33; 0x31; 0x6D] [0x61].
Proof. apply a7_csi. exists [0x33; 0x31], [], 0x6D. split; [reflexivity|]. split; [repeat constructor; unfold parameter; lia|]. split; [constructor|unfold final; lia]. Qed.
Example C23_dcs : ansi7 [0x1B; 0x50; 0x71; 0x1B; 0x78; 0x1B; 0x5C] [0x1B; 0x5C].
Proof.
  apply (a7_str 0x50 [0x71; 0x1B; 0x78; 0x1B; 0x5C]); [left; reflexivity|]. left. exists [0x71; 0x1B; 0x78], [0x1B; 0x5C]. split; [reflexivity|]. split; [|left; reflexivity].
  split; [cbn; intros H; unfold CAN in H; lia|]. split; [cbn; intros H; unfold SUB in H; lia|]. intros t [<-|[]] (p1 & p2 & E).
  destruct p1 as [|? [|? [|? [|? p1]]]]; discriminate E.
Qed.
Example C23_cancelled : ansi7 [0x1B; 0x5D; 0x30] [0x18; 0x61].
Proof.
  apply a7_osc. right. split; [|exists 0x18, [0x61]; split; [reflexivity|left; reflexivity]].
  split; [cbn; intros H; unfold CAN in H; lia|]. split; [cbn; intros H; unfold SUB in H; lia|]. intros t [<-|[<-|[]]] (p1 & p2 & E); destruct p1 as [|? [|? p1]]; discriminate E.
Qed.
Example C23_case : tokens graphemes_api 40 (setAnsi (FromBytes ([0x61; 0x1B; 0x5B; 0x33; 0x31; 0x6D; 0x62] ++ [0x1B; 0x28; 0x42; 0x1B; 0x37; 0x1B; 0x5D; 0x30; 0x18; 0x1B; 0x5B; 0x33])) true false)
  = Ok [[0x61]; [0x1B; 0x5B; 0x33; 0x31; 0x6D]; [0x62]; [0x1B; 0x28; 0x42]; [0x1B; 0x37]; [0x1B; 0x5D; 0x30]; [0x18]; [0x1B]; [0x5B]; [0x33]].
Proof. vm_compute. reflexivity. Qed.

(** ** C24: 8-bit sequences *)
Theorem C24_sequence : forall a7 e v fuel, ansi8 e v -> (length (e ++ v) < fuel)%nat -> exists l,
  tokens graphemes_api fuel (setAnsi (FromBytes v) a7 true) = Ok l
  /\ tokens graphemes_api fuel (setAnsi (FromBytes (e ++ v)) a7 true) = Ok (e :: l).
Proof. exact seq8. Qed.
Print Assumptions C24_sequence.
Theorem C24_exact : forall a7 d fuel l1 t l2, (length d < fuel)%nat ->
  tokens graphemes_api fuel (setAnsi (FromBytes d) a7 true) = Ok (l1 ++ t :: l2) ->
  (forall e v, concat (t :: l2) = e ++ v -> ansi8 e v -> t = e)
  /\ ((forall e v, concat (t :: l2) = e ++ v -> ~ ansi8 e v) ->
      exists l0, tokens graphemes_api fuel (setAnsi (FromBytes (concat (t :: l2))) a7 false) = Ok (t :: l0)).
Proof. exact at_start8. Qed.
Print Assumptions C24_exact.
Theorem C24_unique : forall e v e' v', ansi8 e v -> ansi8 e' v' -> e ++ v = e' ++ v' -> e = e'.
Proof. exact ansi8_unique. Qed.
Print Assumptions C24_unique.
Example C24_csi : ansi8 [0x9B; 0x33; 0x31; 0x6D] [0x61].
Proof. apply a8_csi. exists [0x33; 0x31], [], 0x6D. split; [reflexivity|]. split; [repeat constructor; unfold parameter; lia|]. split; [constructor|unfold final; lia]. Qed.
Example C24_osc : ansi8 [0x9D; 0x30; 0x9C] [0x61].
Proof.
  apply a8_osc. left. exists [0x30], [0x9C]. split; [reflexivity|]. split; [|right; left; reflexivity].
  split; [cbn; intros H; unfold CAN in H; lia|]. split; [cbn; intros H; unfold SUB in H; lia|]. intros t [<-|[<-|[]]] (p1 & p2 & E); destruct p1 as [|? [|? p1]]; discriminate E.
Qed.
(** CSI 31 m, b, OSC 0 ST, IND, an unfinished CSI *)
Example C24_case : tokens graphemes_api 40 (setAnsi (FromBytes [0x9B; 0x33; 0x31; 0x6D; 0x62; 0x9D; 0x30; 0x9C; 0x84; 0x9B; 0x33]) false true)
  = Ok [[0x9B; 0x33; 0x31; 0x6D]; [0x62]; [0x9D; 0x30; 0x9C]; [0x84]; [0x9B]; [0x33]].
Proof. vm_compute. reflexivity. Qed.

(** ** C25: the options do nothing to text without controls *)
Theorem C25_flag7 : forall a8 d fuel, ~ In 0x1B d -> (length d < fuel)%nat ->
  tokens graphemes_api fuel (setAnsi (FromBytes d) true a8) = tokens graphemes_api fuel (setAnsi (FromBytes d) false a8).
Proof. exact flag7_idle. Qed.
Print Assumptions C25_flag7.
Theorem C25_flag8 : forall a7 d fuel, (well_formed d \/ forall b, In b d -> ~ 0x80 <= b <= 0x9F) -> (length d < fuel)%nat ->
  tokens graphemes_api fuel (setAnsi (FromBytes d) a7 true) = tokens graphemes_api fuel (setAnsi (FromBytes d) a7 false).
Proof. exact flag8_idle. Qed.
Print Assumptions C25_flag8.
(** U+00DF, whose second byte is 0x9F; an ESC sequence with U+009B inside *)
Example C25_case : ~ In 0x1B (encode [0xDF]) /\ well_formed (0x1B :: 0x5D :: encode [0x9B; 0xDF; 7])
  /\ tokens graphemes_api 10 (setAnsi (FromBytes (0x1B :: 0x5D :: encode [0x9B; 0xDF; 7])) true true) = Ok [0x1B :: 0x5D :: encode [0x9B; 0xDF; 7]].
Proof.
  split; [cbn; lia|]. split; [|vm_compute; reflexivity]. exists [0x1B; 0x5D; 0x9B; 0xDF; 7]. split; [|reflexivity].
  repeat (constructor; [unfold scalar; lia|]); constructor.
Qed.

(** ** C26: a 7-bit sequence is cut out of the text *)
Theorem C26_cut_out : forall a8 cps e v fuel, scalars cps -> ~ In 0x1B cps -> ansi7 e v -> (length (encode cps ++ e ++ v) < fuel)%nat -> exists lu lv,
  tokens graphemes_api fuel (setAnsi (FromBytes (encode cps)) true a8) = Ok lu
  /\ tokens graphemes_api fuel (setAnsi (FromBytes v) true a8) = Ok lv
  /\ tokens graphemes_api fuel (setAnsi (FromBytes (encode cps ++ e ++ v)) true a8) = Ok (lu ++ e :: lv).
Proof. exact cut7. Qed.
Print Assumptions C26_cut_out.
(** Even after U+0600, which takes what comes next, and before a combining accent. *)
Example C26_case : scalars [0x61; 0x600] /\ ~ In 0x1B [0x61; 0x600] /\ ansi7 [0x1B; 0x5B; 0x33; 0x31; 0x6D] (encode [0x301])
  /\ tokens graphemes_api 20 (setAnsi (FromBytes (encode [0x61; 0x600] ++ [0x1B; 0x5B; 0x33; 0x31; 0x6D] ++ encode [0x301])) true false)
     = Ok [[0x61]; encode [0x600]; [0x1B; 0x5B; 0x33; 0x31; 0x6D]; encode [0x301]].
Proof.
  split; [repeat (constructor; [unfold scalar; lia|]); constructor|]. split; [cbn; lia|]. split; [|vm_compute; reflexivity].
  apply a7_csi. exists [0x33; 0x31], [], 0x6D. split; [reflexivity|]. split; [repeat constructor; unfold parameter; lia|]. split; [constructor|unfold final; lia].
Qed.

(** ** C27: an 8-bit sequence is cut out of the text, unless a Prepend character comes before *)
Theorem C27_cut_out : forall a7 cps e v fuel, scalars cps -> (a7 = true -> ~ In 0x1B cps) -> (forall p c, cps = p ++ [c] -> GCB c <> GCB_Prepend) -> ansi8 e v ->
  (length (encode cps ++ e ++ v) < fuel)%nat -> exists lu lv,
  tokens graphemes_api fuel (setAnsi (FromBytes (encode cps)) a7 true) = Ok lu
  /\ tokens graphemes_api fuel (setAnsi (FromBytes v) a7 true) = Ok lv
  /\ tokens graphemes_api fuel (setAnsi (FromBytes (encode cps ++ e ++ v)) a7 true) = Ok (lu ++ e :: lv).
Proof. exact cut8. Qed.
Print Assumptions C27_cut_out.
Example C27_case : scalars [0x61; 0x301] /\ (forall p c, [0x61; 0x301] = p ++ [c] -> GCB c <> GCB_Prepend) /\ ansi8 [0x9B; 0x33; 0x31; 0x6D] [0x61]
  /\ tokens graphemes_api 20 (setAnsi (FromBytes (encode [0x61; 0x301] ++ [0x9B; 0x33; 0x31; 0x6D] ++ [0x61])) false true)
     = Ok [encode [0x61; 0x301]; [0x9B; 0x33; 0x31; 0x6D]; [0x61]].
Proof.
  split; [repeat (constructor; [unfold scalar; lia|]); constructor|].
  split. { intros p c E. change [0x61; 0x301] with ([0x61] ++ [0x301]) in E. apply app_inj_tail in E. destruct E as [_ <-]. vm_compute. discriminate. }
  split; [exact C24_csi|vm_compute; reflexivity].
Qed.
(** Without that condition it is false: after U+0600 the sequence CSI 1 m is torn apart. *)
Theorem C27_prepend_refuted : exists cps e v, scalars cps /\ ansi8 e v
  /\ tokens graphemes_api 20 (setAnsi (FromBytes (encode cps)) false true) = Ok [encode cps]
  /\ tokens graphemes_api 20 (setAnsi (FromBytes (encode cps ++ e ++ v)) false true) = Ok [encode cps ++ [0x9B]; [0x31]; [0x6D]]
  /\ e = [0x9B; 0x31; 0x6D] /\ v = [].
Proof.
  exists [0x600], [0x9B; 0x31; 0x6D], []. split; [repeat (constructor; [unfold scalar; lia|]); constructor|].
  split. { apply a8_csi. exists [0x31], [], 0x6D. split; [reflexivity|]. split; [repeat constructor; unfold parameter; lia|]. split; [constructor|unfold final; lia]. }
  split; [vm_compute; reflexivity|]. split; [vm_compute; reflexivity|]. split; reflexivity.
Qed.
Print Assumptions C27_prepend_refuted.
