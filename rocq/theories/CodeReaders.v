(** The text of the four reader.go. *)
From Coq Require Import String.
From Verif Require Import SpecIter SpecApi ApiInst SpecUtf8 SpecRules.
From Verif Require Scanner SpecReader.
From Verif Require Import Base GoSyntax GoSem GoFacts SpecCode SpecCodeReader CodeReader CodeText.
From Verif Require ProgWords Words CodeWBase CodeWSplit CodeWIter CodeWords.
Local Open Scope string_scope.
Local Open Scope list_scope.

Lemma decode_out : forall o r h, is_string o = false -> split_outcome (Done (out_vals o r, h)) = Ok r.
Proof. intros o [a t e] h S. unfold out_vals, tok_val, err_val. cbn. destruct o; try discriminate; destruct t, e; reflexivity. Qed.
Lemma data_proper : forall nils d, exists o, data_val nils d = text_val (o, d) /\ proper false (length d) (o, d) /\ is_string o = false.
Proof.
  intros nils d. unfold data_val, text_val. cbn [fst snd]. eexists. split; [reflexivity|]. destruct d as [|b d]; [destruct nils|]; (split; [|reflexivity]); repeat split; cbn; try reflexivity; try lia; discriminate.
Qed.
Lemma value_agrees : forall g p name least nils h, (least <= 7)%nat -> program_is_split g p name least ->
  forall d e, (Z.of_nat (length d) < 2 ^ 62)%Z -> value_split p nils h (VFun name) d e = g d e.
Proof.
  intros g p name least nils h L PS d e D. unfold value_split. destruct (data_proper nils d) as (o & -> & Q & S). cbn [apply].
  destruct (PS false (length d) (2 * length d + 2)%nat 7%nat (o, d) e h Q D (le_n _) L) as (r & h' & E1 & E2). cbn [fst snd] in E1, E2. rewrite E1. change (list N) with bytes in E2. rewrite E2.
  exact (decode_out o r h' S).
Qed.

Definition pg_reader : list decl := Eval vm_compute in decls_of [file_graphemes_reader].
Definition pw_reader : list decl := Eval vm_compute in decls_of [file_words_reader].
Definition ps_reader : list decl := Eval vm_compute in decls_of [file_sentences_reader].
Definition pp_reader : list decl := Eval vm_compute in decls_of [file_phrases_reader].
Lemma parse_g : parse file_graphemes_reader = Some pg_reader. Proof. vm_compute. reflexivity. Qed.
Lemma parse_w : parse file_words_reader = Some pw_reader. Proof. vm_compute. reflexivity. Qed.
Lemma parse_s : parse file_sentences_reader = Some ps_reader. Proof. vm_compute. reflexivity. Qed.
Lemma parse_p : parse file_phrases_reader = Some pp_reader. Proof. vm_compute. reflexivity. Qed.
(** The closure of words' Joiners. *)
Lemma literal_agrees : forall j nils h jv h1, joiners_arg nils (match j with Some j => Some (Words.Middle j, Words.Leading j) | None => None end) h = (jv, h1) ->
  forall nils' d e, (Z.of_nat (length d) < 2 ^ 62)%Z ->
  literal_split ProgWords.pw nils' h1 "data" "atEOF" [ECall (ESel (EId "j") "splitFunc") [EId "data"; EId "atEOF"]] [("j", jv)] d e = Words.joinersSplitFunc j d e.
Proof.
  intros j nils h jv h1 E nils' d e D. unfold literal_split. destruct (data_proper nils' d) as (o & -> & Q & S).
  destruct (CodeWIter.jsplit_total j d e) as (r & R). rewrite R.
  assert (J : exists jl, jv = VPtr "Joiners" jl /\ CodeWSplit.joiner_at j jl h1).
  { destruct j as [j|]; cbn in E; injection E as <- <-; [|exists None; split; [reflexivity|exact I]]. eexists. split; [reflexivity|].
    destruct (CodeWords.runes_val_rep nils (Words.Middle j)) as (m & Em & Rm). destruct (CodeWords.runes_val_rep nils (Words.Leading j)) as (l & El & Rl). unfold CodeWords.runes_val in Em, El.
    exists m, l. rewrite Em, El. split; [apply hget_new|]. split; assumption. }
  destruct J as (jl & -> & J).
  pose proof (CodeWIter.call_jsplit (2 * length d + 2)%nat 3 j jl o d e r h1 J ltac:(apply Q) (le_n _) D R) as C. change (4 + 3)%nat with 7%nat in C.
  unfold text_val. cbn [fst snd]. generalize dependent (call ProgWords.pw (2 * length d + 2) 7). intros C0 C.
  assert (G : evalm ProgWords.pw C0 [ECall (ESel (EId "j") "splitFunc") [EId "data"; EId "atEOF"]] [[("data", VData o d); ("atEOF", VBool e)]; [("j", VPtr "Joiners" jl)]] h1 = Done (out_vals o r, h1)).
  { rewrite <- C. destruct jl; reflexivity. }
  transitivity (split_outcome (Done (out_vals o r, h1))); [f_equal; exact G|exact (decode_out o r h1 S)].
Qed.
(** FromReader: NewScanner, Split(SplitFunc), the struct. *)
Definition exports (p : program) : Prop := assoc "SplitFunc" (p_globals p) = Some (VFun "splitFunc").
Lemma from_reader : forall p ds, exports p -> In ds [pg_reader; pw_reader; ps_reader; pp_reader] ->
  forall nils h lines, text_FromReader p ds nils h lines = Some (Ok (Scanner.FromReader (value_split p nils h (VFun "splitFunc")), true)).
Proof.
  intros p ds E [<-|[<-|[<-|[<-|[]]]]] nils h lines; unfold text_FromReader; cbn; rewrite E; reflexivity.
Qed.
Lemma joiners_run : forall p j nils h lines s, text_Joiners p pw_reader nils h lines s j
  = Some (s' <- Scanner.Split s (literal_split p nils h "data" "atEOF" [ECall (ESel (EId "j") "splitFunc") [EId "data"; EId "atEOF"]] [("j", j)]) ;; Ok (s', false)).
Proof. intros. unfold text_Joiners. cbn. destruct (Scanner.Split s _); reflexivity. Qed.

Lemma reader_ok : forall {A : api} {K : Type} {data : It A -> bytes} {pos start : It A -> nat} {kof : It A -> K -> Prop} {fk : K -> splitfun} {newK : K} {cfgK : Cfg A -> K -> K}
  (AO : ApiFacts.api_ok A data pos start kof fk newK cfgK) code p file ds g decides least,
  code = Some p -> parse file = Some ds -> In ds [pg_reader; pw_reader; ps_reader; pp_reader] -> exports p -> (least <= 7)%nat -> program_is_split g p "splitFunc" least ->
  SpecReader.reads_all (SpecReader.iterating A) g -> SpecReader.reads_all_short (SpecReader.iterating A) g ->
  (forall cps fuel, scalars cps -> (length (encode cps) < fuel)%nat -> exists segs, tokens A fuel (a_new A (encode cps)) = Ok (map encode segs) /\ segmentation decides cps segs) ->
  reader_text code file g decides.
Proof.
  intros A K data pos start kof fk newK cfgK AO code p file ds g decides least E1 E2 I X L PS RA RS CF. exists p, ds. split; [exact E1|]. split; [exact E2|]. intros nils h lines.
  exists (value_split p nils h (VFun "splitFunc")). split; [now apply from_reader|].
  assert (AS : scans_as (value_split p nils h (VFun "splitFunc")) g) by (apply agree_scans; eapply value_agrees; eassumption).
  split; [exact AS|]. eapply (conform_reader AO); eassumption.
Qed.
Lemma joiners_ok : joiners_text ProgWords.words_code file_words_reader (fun j => Words.joinersSplitFunc (match j with Some (m, l) => Some {| Words.Middle := m; Words.Leading := l |} | None => None end)).
Proof.
  exists ProgWords.pw, pw_reader. split; [exact ProgWords.words_link|]. split; [exact parse_w|]. intros j nils nils' h lines s. destruct (joiners_arg nils' j h) as [v h'] eqn:E.
  exists (literal_split ProgWords.pw nils h' "data" "atEOF" [ECall (ESel (EId "j") "splitFunc") [EId "data"; EId "atEOF"]] [("j", v)]).
  split; [rewrite joiners_run; destruct s as [? ? ? ? ? ? ? ? []]; reflexivity|].
  apply agree_scans. intros d e D. eapply (literal_agrees _ nils' h); [|exact D]. rewrite <- E. destruct j as [[m l]|]; reflexivity.
Qed.
