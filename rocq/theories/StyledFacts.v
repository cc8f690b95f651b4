(** Text with control sequences: the tokens of the pieces, and the sequences between them. *)
From Verif Require Import Base ListFacts SpecUtf8 SpecIter SpecApi SpecUcd SpecRules SpecGraphemes SpecAnsi SpecStyled ApiInst NestFacts Conform PropConform PropAnsi.
From Verif Require Graphemes.
Import Graphemes.
Local Open Scope N_scope.

Lemma utf8_first : forall c, scalar c -> exists b s, utf8 c = b :: s /\ (b = ESC -> c = ESC) /\ (b < 0x80 \/ 0xC0 <= b) /\ Forall (fun x => 0x80 <= x) s.
Proof.
  intros c Hc. assert (M : forall x, 0x80 <= 0x80 + x) by (intros x; apply N.le_add_r). unfold utf8.
  destruct (N.ltb_spec c 0x80) as [L|L]; [exists c, []; repeat split; auto|].
  assert (K : forall d s, 0xC0 <= d -> Forall (fun x => 0x80 <= x) s -> exists b s', d :: s = b :: s' /\ (b = ESC -> c = ESC) /\ (b < 0x80 \/ 0xC0 <= b) /\ Forall (fun x => 0x80 <= x) s').
  { intros d s Hd F. exists d, s. split; [reflexivity|]. split; [intros ->; unfold ESC in Hd; lia|]. split; [right; exact Hd|exact F]. }
  assert (G : forall k x, 0xC0 <= k -> 0xC0 <= k + x) by (intros k x H; apply N.le_trans with (1 := H), N.le_add_r).
  destruct (c <? 0x800); [|destruct (c <? 0x10000)]; (apply K; [apply G; discriminate|repeat (constructor; [apply M|]); constructor]).
Qed.
Lemma esc_bytes : forall cps, scalars cps -> ~ In ESC cps -> ~ In ESC (encode cps).
Proof.
  intros cps Hs N I. unfold encode in I. apply in_concat in I as (x & Ix & Ie). apply in_map_iff in Ix as (c & <- & Ic). unfold scalars in Hs. rewrite Forall_forall in Hs.
  destruct (utf8_first c (Hs c Ic)) as (b & s & E & H1 & _ & F). rewrite E in Ie. destruct Ie as [Q|Q]; [apply N; rewrite <- (H1 Q); exact Ic|].
  rewrite Forall_forall in F. specialize (F _ Q). unfold ESC in F. lia.
Qed.

Definition cut_plain (fuel : nat) (c : text) (l : list bytes) : Prop := tokens graphemes_api fuel (FromBytes (encode c)) = Ok l.
Lemma piece_plain : forall a7 a8 c fuel, piece a7 c -> (length (encode c) < fuel)%nat -> tokens graphemes_api fuel (setAnsi (FromBytes (encode c)) a7 a8) = tokens graphemes_api fuel (FromBytes (encode c)).
Proof.
  intros a7 a8 c fuel [Sc Ne] Hf. transitivity (tokens graphemes_api fuel (setAnsi (FromBytes (encode c)) a7 false)).
  - destruct a8; [|reflexivity]. apply C25_flag8; [left; exists c; auto|exact Hf].
  - destruct a7; [|reflexivity]. apply C25_flag7; [exact (esc_bytes c Sc (Ne eq_refl))|exact Hf].
Qed.
Lemma plain_tokens : forall c fuel, scalars c -> (length (encode c) < fuel)%nat -> exists segs, cut_plain fuel c (map encode segs) /\ concat segs = c /\ Forall (fun s => s <> []) segs.
Proof. intros c fuel Sc Hf. destruct (C05_graphemes_are_uax29 c fuel Sc Hf) as (segs & E & (C & F & _) & _). exists segs. auto. Qed.
Lemma styled_tokens : forall a7 a8 ps z fuel, styled_ok a7 a8 ps z -> (length (styled ps z) < fuel)%nat ->
  exists l, tokens graphemes_api fuel (setAnsi (FromBytes (styled ps z)) a7 a8) = Ok l /\ pieced (cut_plain fuel) ps z l.
Proof.
  intros a7 a8 ps z fuel. induction ps as [|[c e] r IH]; intros Ok_ Hf; cbn [styled styled_ok] in *.
  - destruct (plain_tokens z fuel (proj1 Ok_) Hf) as (segs & E & _). exists (map encode segs). split; [rewrite (piece_plain a7 a8 z fuel Ok_ Hf); exact E|]. constructor. exact E.
  - destruct Ok_ as (Pc & Se & Ok_). assert (Hr : (length (styled r z) < fuel)%nat) by (rewrite !app_length in Hf; lia). assert (Hc : (length (encode c) < fuel)%nat) by (rewrite app_length in Hf; lia).
    destruct (IH Ok_ Hr) as (l' & E' & P'). destruct (plain_tokens c fuel (proj1 Pc) Hc) as (segs & Ec & _). pose proof (piece_plain a7 a8 c fuel Pc Hc) as Q. unfold cut_plain in Ec. rewrite Ec in Q.
    exists (map encode segs ++ e :: l'). split; [|constructor; [exact Ec|exact P']].
    destruct Se as [[-> A]|(-> & A & Np)].
    + destruct (C26_cut_out a8 c e (styled r z) fuel (proj1 Pc) (proj2 Pc eq_refl) A Hf) as (lu & lv & E1 & E2 & E3). rewrite Q in E1. injection E1 as <-. rewrite E' in E2. injection E2 as <-. exact E3.
    + destruct (C27_cut_out a7 c e (styled r z) fuel (proj1 Pc) (proj2 Pc) Np A Hf) as (lu & lv & E1 & E2 & E3). rewrite Q in E1. injection E1 as <-. rewrite E' in E2. injection E2 as <-. exact E3.
Qed.

(** * Taking the sequences out *)
Lemma plain_kept : forall a7 a8 c l fuel, piece a7 c -> (length (encode c) < fuel)%nat -> cut_plain fuel c l -> Forall (fun t => control_token a7 a8 t = false) l /\ concat l = encode c.
Proof.
  intros a7 a8 c l fuel [Sc Ne] Hf Cl. destruct (plain_tokens c fuel Sc Hf) as (segs & E & C & F). unfold cut_plain in *. rewrite E in Cl. injection Cl as <-. split; [|rewrite concat_encode, C; reflexivity].
  apply Forall_map. apply Forall_forall. intros s Is. rewrite Forall_forall in F. specialize (F s Is). destruct s as [|x s]; [contradiction|].
  assert (Ix : In x c) by (rewrite <- C; apply in_concat; exists (x :: s); split; [exact Is|left; reflexivity]).
  unfold scalars in Sc. rewrite Forall_forall in Sc. destruct (utf8_first x (Sc x Ix)) as (b & t & Eb & H1 & H2 & _). rewrite encode_cons, Eb. cbn [app control_token].
  apply orb_false_iff. split.
  - destruct a7; [|reflexivity]. cbn [andb]. apply N.eqb_neq. intros Q. apply (Ne eq_refl). rewrite <- (H1 Q). exact Ix.
  - destruct a8; [|reflexivity]. cbn [andb]. destruct (N.leb_spec 0x80 b), (N.leb_spec b 0x9F); try reflexivity. lia.
Qed.
Lemma sequence_control : forall a7 a8 c e v, sequence a7 a8 c e v -> control_token a7 a8 e = true.
Proof.
  intros a7 a8 c e v [[-> A]|(-> & A & _)].
  - destruct A; reflexivity.
  - assert (H : exists b t, e = b :: t /\ 0x80 <= b <= 0x9F).
    { destruct A as [body v B|body v B|k body v K B|b v B _]; [exists CSI8, body|exists OSC8, body|exists k, body|exists b, []]; (split; [reflexivity|]); [unfold CSI8; lia|unfold OSC8; lia| |exact B].
      unfold STR8 in K. cbn [In] in K. lia. }
    destruct H as (b & t & -> & B). cbn [control_token]. rewrite (proj2 (N.leb_le 0x80 b)), (proj2 (N.leb_le b 0x9F)) by lia. apply orb_true_r.
Qed.
Lemma filter_none : forall (f : bytes -> bool) l, Forall (fun t => f t = false) l -> filter (fun t => negb (f t)) l = l.
Proof. intros f l F. induction F as [|t l H F IH]; [reflexivity|]. cbn [filter]. rewrite H, IH. reflexivity. Qed.
Lemma pieced_strip : forall a7 a8 fuel ps z l, styled_ok a7 a8 ps z -> (length (styled ps z) < fuel)%nat -> pieced (cut_plain fuel) ps z l ->
  concat (filter (fun t => negb (control_token a7 a8 t)) l) = encode (plain ps z) /\ filter (control_token a7 a8) l = map snd ps.
Proof.
  intros a7 a8 fuel ps z l Ok_ Hf Pl. induction Pl as [z l Cl|c e r z l l' Cl Pl IH]; cbn [styled styled_ok map snd] in *.
  - destruct (plain_kept a7 a8 z l fuel Ok_ Hf Cl) as [F C]. split; [rewrite (filter_none _ l F); exact C|]. clear - F. induction F as [|t l H F IH]; [reflexivity|]. cbn [filter]. rewrite H. exact IH.
  - destruct Ok_ as (Pc & Se & Ok_). destruct (IH Ok_) as [I1 I2]; [rewrite !app_length in Hf; lia|]. destruct (plain_kept a7 a8 c l fuel Pc ltac:(rewrite app_length in Hf; lia) Cl) as [F C].
    pose proof (sequence_control a7 a8 c e _ Se) as K. rewrite !filter_app. cbn [filter]. rewrite K. cbn [negb]. split.
    + rewrite (filter_none _ l F), concat_app, C, I1. unfold plain. cbn [map fst concat]. rewrite <- app_assoc. symmetry. apply encode_app.
    + rewrite I2. replace (filter (control_token a7 a8) l) with (@nil bytes); [reflexivity|]. clear - F. induction F as [|t l H F IH]; [reflexivity|]. cbn [filter]. rewrite H. exact IH.
Qed.
