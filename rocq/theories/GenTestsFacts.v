(** Reading test files in the format of SpecTestFile, and the source that is written. *)
From Coq Require Import String.
From Verif Require Import Base SpecUtf8 SpecData SpecDataFile SpecGoSource GenParse GenParseFacts Print PrintFacts GenTests SpecTestFile Conform NestFacts.
Local Open Scope N_scope.
Local Open Scope list_scope.

(** * Lines *)
Lemma drop_cr_no : forall l, no_cr l -> drop_cr l = l.
Proof.
  intros l H. unfold drop_cr. destruct (rev l) as [|c r] eqn:E; [reflexivity|]. destruct (N.eqb_spec c 13) as [->|]; [|reflexivity].
  exfalso. apply (H (rev r)). rewrite <- (rev_involutive l), E. reflexivity.
Qed.
Lemma drop_cr_yes : forall l, drop_cr (l ++ [13]) = l.
Proof. intros l. unfold drop_cr. rewrite rev_app_distr. cbn [rev app]. rewrite N.eqb_refl. apply rev_involutive. Qed.
Lemma scan_lines_cons : forall s acc f, free 10 s -> scan_lines acc (s ++ 10 :: f) = drop_cr (rev acc ++ s) :: scan_lines [] f.
Proof.
  induction s as [|b s IH]; intros acc f F; cbn [app scan_lines].
  - rewrite N.eqb_refl, app_nil_r. reflexivity.
  - inversion F as [|? ? Hb Fs]; subst. rewrite (proj2 (N.eqb_neq b 10) Hb), (IH _ _ Fs). cbn [rev]. rewrite <- app_assoc. reflexivity.
Qed.
Lemma scan_lines_last : forall s acc, free 10 s -> rev acc ++ s <> [] -> scan_lines acc s = [drop_cr (rev acc ++ s)].
Proof.
  induction s as [|b s IH]; intros acc F N; cbn [scan_lines].
  - rewrite app_nil_r in *. destruct acc; [contradiction N; reflexivity|reflexivity].
  - inversion F as [|? ? Hb Fs]; subst. rewrite (proj2 (N.eqb_neq b 10) Hb). rewrite (IH _ Fs); cbn [rev]; rewrite <- app_assoc; [reflexivity|exact N].
Qed.

(** * Segments *)
Inductive clean : bytes -> Prop :=
  | clean_nil : clean []
  | clean_byte : forall b s, b <> 0xC3 -> clean s -> clean (b :: s)
  | clean_mul : forall s, clean s -> clean (0xC3 :: 0x97 :: s).
Lemma clean_app : forall a b, clean a -> clean b -> clean (a ++ b).
Proof. intros a b A B. induction A; cbn [app]; [exact B|constructor; assumption|constructor; assumption]. Qed.
Lemma clean_free : forall s, free 0xC3 s -> clean s.
Proof. induction s as [|b s IH]; intros F; [constructor|]. inversion F; subst. constructor; auto. Qed.
Lemma split_div_step : forall b s p ps, b <> 0xC3 -> split_div s = p :: ps -> split_div (b :: s) = (b :: p) :: ps.
Proof.
  intros b s p ps N E. cbn [split_div]. destruct s as [|c s]; [cbn in E; injection E as <- <-; reflexivity|]. rewrite (proj2 (N.eqb_neq b 0xC3) N). cbn [andb]. rewrite E. reflexivity.
Qed.
Lemma split_div_mul : forall s p ps, split_div s = p :: ps -> split_div (0xC3 :: 0x97 :: s) = (0xC3 :: 0x97 :: p) :: ps.
Proof. intros s p ps E. pose proof (split_div_step 0x97 s p ps ltac:(discriminate) E) as E'. cbn [split_div] in E' |- *. cbn [N.eqb Pos.eqb andb] in E' |- *. rewrite E'. reflexivity. Qed.
Lemma split_div_clean : forall s, clean s -> split_div s = [s].
Proof. intros s C. induction C; [reflexivity|apply split_div_step; assumption|apply split_div_mul; assumption]. Qed.
Lemma split_div_cons : forall s r, clean s -> split_div (s ++ div ++ r) = s :: split_div r.
Proof.
  intros s r C. induction C; cbn [app]; [reflexivity|apply split_div_step; assumption|apply split_div_mul; assumption].
Qed.

Definition hash_free (s : bytes) : Prop := free 35 s /\ free 10 s.
Lemma hash_free_app : forall a b, hash_free a -> hash_free b -> hash_free (a ++ b).
Proof. intros a b [A A'] [B B']. split; apply Forall_app; split; assumption. Qed.
Lemma hex_bytes : forall s n, hexadecimal s n -> hash_free s /\ free 32 s /\ free 0xC3 s.
Proof.
  intros s n H. destruct (hex_chars s n H) as [_ F]. unfold hash_free, free, plain in *.
  repeat split; (eapply Forall_impl; [|exact F]; cbn beta; intros c ((L & S) & _ & _ & A & B)); [exact B|exact A| |lia]. intros ->. discriminate S.
Qed.
Lemma hash_free_lit : forall l, forallb (fun b => negb (b =? 35) && negb (b =? 10)) l = true -> hash_free l.
Proof.
  intros l F. rewrite forallb_forall in F. split; apply Forall_forall; intros b I; specialize (F b I); apply andb_prop in F as [A B]; apply negb_true_iff in A, B; apply N.eqb_neq; assumption.
Qed.

Lemma unbroken_starts : forall k s cps, unbroken k s cps -> exists t, s = 0x20 :: t.
Proof. intros k s cps U. destruct U; eexists; reflexivity. Qed.
Lemma unbroken_chars : forall k s cps, unbroken k s cps -> clean s /\ hash_free s.
Proof.
  intros k s cps U. induction U as [s cp (H & L & S)|s cp t cps (H & L & S) U [C F]]; destruct (hex_bytes s cp H) as (A & _ & B).
  - split; [apply clean_app; [apply clean_free; constructor; [lia|constructor]|apply clean_app; [apply clean_free; exact B|apply clean_free; constructor; [lia|constructor]]]|].
    apply hash_free_app; [apply hash_free_lit; reflexivity|apply hash_free_app; [exact A|apply hash_free_lit; reflexivity]].
  - split.
    + apply clean_app; [apply clean_free; constructor; [lia|constructor]|apply clean_app; [apply clean_free; exact B|apply clean_app; [apply clean_free; constructor; [lia|constructor]|]]]. apply clean_mul. exact C.
    + apply hash_free_app; [apply hash_free_lit; reflexivity|apply hash_free_app; [exact A|]]. apply hash_free_app; [apply hash_free_lit; reflexivity|apply hash_free_app; [apply hash_free_lit; reflexivity|exact F]].
Qed.
Lemma marked_starts : forall k s segs, marked k s segs -> exists t, s = 0xC3 :: t.
Proof. intros k s segs M. destruct M; eexists; reflexivity. Qed.
Lemma marked_chars : forall k s segs, marked k s segs -> hash_free s.
Proof.
  intros k s segs M. induction M as [|s cps t segs U M IH]; [apply hash_free_lit; reflexivity|].
  apply hash_free_app; [apply hash_free_lit; reflexivity|]. apply hash_free_app; [exact (proj2 (unbroken_chars k s cps U))|exact IH].
Qed.
Lemma marked_split : forall k s segs w, marked k s segs -> clean w -> exists ps, split_div (s ++ w) = [] :: ps ++ [w] /\ Forall2 (unbroken k) ps segs.
Proof.
  intros k s segs w M W. induction M as [|s cps t segs U M (ps & E & F)].
  - exists []. split; [|constructor]. cbn [app]. change (div ++ w) with ([] ++ div ++ w). rewrite split_div_cons by constructor. rewrite (split_div_clean w W). reflexivity.
  - exists (s :: ps). split; [|constructor; assumption]. rewrite <- !app_assoc. change (div ++ s ++ t ++ w) with ([] ++ div ++ s ++ t ++ w). rewrite split_div_cons by constructor. f_equal.
    destruct (unbroken_chars k s cps U) as [C _].
    assert (T : exists t', t ++ w = div ++ t') by (destruct M; eexists; [reflexivity|rewrite <- app_assoc; reflexivity]). destruct T as [t' T]. rewrite T in E |- *.
    rewrite (split_div_cons s t' C). cbn [app]. f_equal. change (div ++ t') with ([] ++ div ++ t') in E. rewrite split_div_cons in E by constructor. injection E as E. exact E.
Qed.

(** * Values *)
Definition below (n : nat) : list N := map N.of_nat (seq 0 n).
Lemma in_below : forall n x, x < N.of_nat n -> In x (below n).
Proof. intros n x L. apply in_map_iff. exists (N.to_nat x). split; [apply N2Nat.id|]. apply in_seq. lia. Qed.
Lemma lor_add : forall n c, forallb (fun x => N.lor c x =? c + x) (below n) = true -> forall x, x < N.of_nat n -> N.lor c x = c + x.
Proof. intros n c F x L. rewrite forallb_forall in F. apply N.eqb_eq. apply F. apply in_below. exact L. Qed.
Lemma low6_mod : forall x, N.lor 0x80 (low6 x) = 0x80 + x mod 0x40.
Proof.
  intros x. unfold low6, to_byte. change 0x3F with (N.ones 6). rewrite N.land_ones. change (2 ^ 6) with 0x40.
  assert (E : (x mod 0x100) mod 0x40 = x mod 0x40) by (change 0x100 with (0x40 * 4); rewrite N.mod_mul_r, N.add_mod, (N.mul_comm 0x40), N.mod_mul, N.add_0_r, !N.mod_mod by discriminate; reflexivity).
  rewrite E. apply (lor_add 64 0x80); [reflexivity|]. apply N.mod_lt. discriminate.
Qed.
Lemma EncodeRune_ok : forall r, r < 0x110000 -> EncodeRune r = utf8 r.
Proof.
  intros r L. unfold EncodeRune, utf8. rewrite !N.shiftr_div_pow2. change (2 ^ 6) with 0x40. change (2 ^ 12) with 0x1000. change (2 ^ 18) with 0x40000. rewrite !low6_mod.
  assert (B : forall a b, b <> 0 -> (a <=? b - 1) = (a <? b)) by (intros a b N; destruct (N.leb_spec a (b - 1)), (N.ltb_spec a b); lia || reflexivity).
  change 0x7F with (0x80 - 1). change 0x7FF with (0x800 - 1). change 0xFFFF with (0x10000 - 1). rewrite (B r 0x80), (B r 0x800), (B r 0x10000) by discriminate. unfold to_byte.
  destruct (N.ltb_spec r 0x80); [rewrite N.mod_small by lia; reflexivity|].
  destruct (N.ltb_spec r 0x800).
  { assert (D : r / 0x40 < 0x20) by (apply N.div_lt_upper_bound; lia). rewrite (N.mod_small (r / 0x40)) by lia. rewrite (lor_add 32 0xC0 eq_refl _ D). reflexivity. }
  destruct (N.ltb_spec r 0x10000).
  { assert (D : r / 0x1000 < 0x10) by (apply N.div_lt_upper_bound; lia). rewrite (N.mod_small (r / 0x1000)) by lia. rewrite (lor_add 16 0xE0 eq_refl _ D). reflexivity. }
  assert (D : r / 0x40000 < 0x8) by (apply N.div_lt_upper_bound; lia). rewrite (N.mod_small (r / 0x40000)) by lia. rewrite (lor_add 8 0xF0 eq_refl _ D). reflexivity.
Qed.
Lemma rune_bytes_ok : forall cp, scalar cp -> rune_bytes cp = Some (utf8 cp).
Proof.
  intros cp S. unfold rune_bytes, RuneLen. unfold scalar in S. rewrite EncodeRune_ok by lia.
  destruct (N.leb_spec cp 0x7F); [reflexivity|]. destruct (N.leb_spec cp 0x7FF); [reflexivity|].
  destruct (N.leb_spec 0xD800 cp), (N.leb_spec cp 0xDFFF); cbn [andb]; try lia; (destruct (N.leb_spec cp 0xFFFF); [reflexivity|]); (destruct (N.leb_spec cp 0x10FFFF); [reflexivity|lia]).
Qed.
Lemma scalar_le : forall cp, scalar cp -> cp <= 0x10FFFF.
Proof. unfold scalar. lia. Qed.
Lemma gen_vals_code : forall s cp r b, code_point 4 s cp -> gen_vals r = Ok (Some b) -> gen_vals (s :: r) = Ok (Some (utf8 cp ++ b)).
Proof.
  intros s cp r b (H & L & S) E. cbn [gen_vals]. rewrite (proj2 (Nat.ltb_ge _ _) L), (ParseHex_ok s cp H (scalar_le _ S)), (rune_bytes_ok cp S), E. reflexivity.
Qed.
Lemma gen_vals_short : forall s r, (length s < 4)%nat -> gen_vals (s :: r) = gen_vals r.
Proof. intros s r L. cbn [gen_vals]. rewrite (proj2 (Nat.ltb_lt _ _) L). reflexivity. Qed.
Lemma unbroken_vals : forall s cps, unbroken 4 s cps -> gen_vals (split1 32 s) = Ok (Some (encode cps)).
Proof.
  intros s cps U. induction U as [s cp C|s cp t cps C U IH]; pose proof C as (H & _ & _); destruct (hex_bytes s cp H) as (_ & F & _).
  - change ([0x20] ++ s ++ [0x20]) with ([] ++ 32 :: s ++ 32 :: []). rewrite split1_cons by constructor. rewrite split1_cons by exact F.
    rewrite gen_vals_short by (cbn; lia). apply gen_vals_code; [exact C|reflexivity].
  - change ([0x20] ++ s ++ [0x20] ++ mul ++ t) with ([] ++ 32 :: s ++ 32 :: mul ++ t). rewrite split1_cons by constructor. rewrite split1_cons by exact F.
    rewrite gen_vals_short by (cbn; lia). rewrite encode_cons. apply gen_vals_code; [exact C|].
    destruct (unbroken_starts _ _ _ U) as [t' ->]. rewrite split1_cons by (repeat constructor; lia). rewrite gen_vals_short by (cbn; lia).
    change (32 :: t') with ([] ++ 32 :: t') in IH. rewrite split1_cons in IH by constructor. rewrite gen_vals_short in IH by (cbn; lia). exact IH.
Qed.
Lemma unbroken_long : forall s cps, unbroken 4 s cps -> (4 <= length s)%nat.
Proof. intros s cps U. destruct U as [s cp (_ & L & _)|s cp t cps (_ & L & _) _]; rewrite !app_length; cbn [length]; lia. Qed.
Lemma gen_segments_ok : forall ps segs w, Forall2 (unbroken 4) ps segs -> (length w < 4)%nat -> gen_segments (ps ++ [w]) = Ok (Some (map encode segs)).
Proof.
  intros ps segs w F W. induction F as [|s cps ps segs U F IH]; cbn [app gen_segments map].
  - rewrite (proj2 (Nat.ltb_lt _ _) W). reflexivity.
  - rewrite (proj2 (Nat.ltb_ge _ _) (unbroken_long s cps U)), (unbroken_vals s cps U). cbn [bind]. rewrite IH. reflexivity.
Qed.

(** * Files *)
Section Trim.
  Variable trim : bytes -> bytes.
  Definition test_of (t : list (list N) * bytes) : test := {| t_input := encode (concat (fst t)); t_expected := map encode (fst t); t_comment := trim (snd t) |}.
  Lemma line_free : forall l ts, test_line 4 l ts -> free 10 l /\ l <> [].
  Proof.
    intros l ts L. destruct L as [c F|s segs w c M B _ F].
    - split; [constructor; [lia|exact F]|discriminate].
    - destruct (marked_starts _ _ _ M) as [t E]. split; [|rewrite E; discriminate]. apply Forall_app. split; [exact (proj2 (marked_chars _ _ _ M))|].
      apply Forall_app. split; [eapply Forall_impl; [|exact B]; cbn beta; lia|]. constructor; [lia|]. eapply Forall_impl; [|exact F]. cbn beta. tauto.
  Qed.
  Lemma gen_line_ok : forall l ts r ts', test_line 4 l ts -> gen_lines trim r = Ok (Some ts') -> gen_lines trim (l :: r) = Ok (Some (map test_of ts ++ ts')).
  Proof.
    intros l ts r ts' L R. cbn [gen_lines]. destruct L as [c F|s segs w c M B W F]; cbn [gen_line].
    - cbn [N.eqb Pos.eqb bind]. rewrite R. reflexivity.
    - destruct (marked_starts _ _ _ M) as [t E]. unfold gen_line.
      assert (P : split1 35 (s ++ w ++ [35] ++ c) = [s ++ w; c]).
      { rewrite app_assoc. cbn [app]. rewrite split1_cons. 2: { apply Forall_app. split; [exact (proj1 (marked_chars _ _ _ M))|eapply Forall_impl; [|exact B]; cbn beta; lia]. }
        rewrite split1_free; [reflexivity|eapply Forall_impl; [|exact F]; cbn beta; tauto]. }
      destruct (marked_split 4 s segs w M) as (ps & D & U); [apply clean_free; eapply Forall_impl; [|exact B]; cbn beta; lia|].
      rewrite P. cbn [nth_error]. rewrite D. change (gen_segments ([] :: ps ++ [w])) with (gen_segments (ps ++ [w])). pose proof (gen_segments_ok ps segs w U W) as G.
      match goal with |- context[gen_segments ?x] => change (gen_segments x = Ok (Some (map encode segs))) in G; rewrite G end. rewrite E. cbn [app N.eqb Pos.eqb bind]. rewrite R. cbn [map app].
      unfold test_of. cbn [fst snd]. rewrite concat_encode. reflexivity.
  Qed.
  Lemma scan_line : forall l e f ts, test_line 4 l ts -> no_cr l -> line_end e -> scan_lines [] (l ++ e ++ f) = l :: scan_lines [] f.
  Proof.
    intros l e f ts L C E. destruct (line_free l ts L) as [F _]. destruct E; cbn [app].
    - rewrite scan_lines_cons by exact F. cbn [rev app]. rewrite drop_cr_no by exact C. reflexivity.
    - change (l ++ 13 :: 10 :: f) with (l ++ [13] ++ 10 :: f). rewrite app_assoc, scan_lines_cons by (apply Forall_app; split; [exact F|constructor; [lia|constructor]]).
      cbn [rev app]. rewrite drop_cr_yes. reflexivity.
  Qed.
  Lemma gen_lines_app : forall f ts g, test_lines 4 f ts -> forall ts', gen_lines trim (scan_lines [] g) = Ok (Some ts') ->
    gen_lines trim (scan_lines [] (f ++ g)) = Ok (Some (map test_of ts ++ ts')).
  Proof.
    intros f ts g T. induction T as [|l e f ts ts' L C E T IH]; intros ts2 G; [exact G|].
    rewrite <- !app_assoc, (scan_line l e (f ++ g) ts L C E), map_app, <- app_assoc. apply gen_line_ok; [exact L|]. apply IH. exact G.
  Qed.
  Lemma generate_ok : forall f ts, test_file 4 f ts -> generateTests trim f = Ok (Some (map test_of ts)).
  Proof.
    intros f ts T. unfold generateTests. destruct T as [f ts T|f l ts ts' T L C].
    - rewrite <- (app_nil_r f), (gen_lines_app f ts [] T []), app_nil_r by reflexivity. reflexivity.
    - rewrite map_app. apply gen_lines_app; [exact T|]. destruct (line_free l ts' L) as [F N]. rewrite scan_lines_last by assumption. cbn [rev app]. rewrite drop_cr_no by exact C.
      rewrite (gen_line_ok l ts' [] [] L eq_refl), app_nil_r. reflexivity.
  Qed.
  (** An empty line. *)
  Lemma generate_empty : forall f ts e g, test_lines 4 f ts -> line_end e -> generateTests trim (f ++ e ++ g) = Panic.
  Proof.
    intros f ts e g T E. unfold generateTests. induction T as [|l e' f ts ts' L C E' T IH].
    - destruct E; reflexivity.
    - rewrite <- !app_assoc, (scan_line l e' _ ts L C E'). cbn [gen_lines]. pose proof (gen_line_ok l ts [] [] L eq_refl) as G. cbn [gen_lines] in G.
      destruct (gen_line trim l) as [t| |]; [|discriminate G|discriminate G]. cbn [bind] in *. destruct t as [t|]; [|discriminate G]. rewrite IH. reflexivity.
  Qed.
End Trim.

(** * The generated tests against the tokens *)
From Verif Require Import FilterFacts.
Lemma encode_inj : forall a b, scalars a -> scalars b -> encode a = encode b -> a = b.
Proof. intros a b A B E. apply (runes_fun (encode a)); [apply runes_encode; exact A|rewrite E; apply runes_encode; exact B]. Qed.
Lemma map_encode_inj : forall s s', Forall scalars s -> Forall scalars s' -> map encode s = map encode s' -> s = s'.
Proof.
  intros s s' F. revert s'. induction F as [|a s A F IH]; intros s' F' E; destruct F' as [|b s' B F']; [reflexivity|discriminate E|discriminate E|]. cbn [map] in E. injection E as E1 E2.
  f_equal; [apply encode_inj; assumption|apply IH; assumption].
Qed.
Lemma scalars_concat : forall l, Forall scalars l <-> scalars (concat l).
Proof.
  induction l as [|a l IH]; [split; constructor|]. cbn [concat]. unfold scalars in *. rewrite Forall_app, <- IH. split; [intros F; inversion F; tauto|intros [A B]; constructor; assumption].
Qed.
Lemma unbroken_scalars : forall k s cps, unbroken k s cps -> scalars cps.
Proof. intros k s cps U. induction U as [s cp (_ & _ & S)|s cp t cps (_ & _ & S) _ IH]; constructor; [exact S|constructor|exact S|exact IH]. Qed.
Lemma marked_scalars : forall k s segs, marked k s segs -> Forall scalars segs.
Proof. intros k s segs M. induction M as [|s cps t segs U _ IH]; constructor; [exact (unbroken_scalars _ _ _ U)|exact IH]. Qed.
Lemma line_scalars : forall k l ts, test_line k l ts -> Forall (fun t => Forall scalars (fst t)) ts.
Proof. intros k l ts L. destruct L as [|s segs w c M]; constructor; [exact (marked_scalars _ _ _ M)|constructor]. Qed.
Lemma lines_scalars : forall k f ts, test_lines k f ts -> Forall (fun t => Forall scalars (fst t)) ts.
Proof. intros k f ts T. induction T as [|l e f ts ts' L _ _ _ IH]; [constructor|]. apply Forall_app. split; [exact (line_scalars _ _ _ L)|exact IH]. Qed.
Lemma file_scalars : forall k f ts, test_file k f ts -> Forall (fun t => Forall scalars (fst t)) ts.
Proof. intros k f ts T. destruct T as [f ts T|f l ts ts' T L _]; [exact (lines_scalars _ _ _ T)|]. apply Forall_app. split; [exact (lines_scalars _ _ _ T)|exact (line_scalars _ _ _ L)]. Qed.

Section Pass.
  Variable segm : list N -> list (list N) -> Prop.
  Variable toks : nat -> bytes -> res (list bytes).
  Hypothesis conform : forall cps fuel, scalars cps -> (length (encode cps) < fuel)%nat -> exists segs, toks fuel (encode cps) = Ok (map encode segs) /\ segm cps segs /\ forall segs', segm cps segs' -> segs' = segs.
  Hypothesis whole : forall cps segs, segm cps segs -> concat segs = cps.
  Lemma pass_iff : forall trim f ts tests fuel, test_file 4 f ts -> generateTests trim f = Ok (Some tests) -> (forall t, In t tests -> (length (t_input t) < fuel)%nat) ->
    ((forall t, In t tests -> toks fuel (t_input t) = Ok (t_expected t)) <-> (forall segs c, In (segs, c) ts -> segm (concat segs) segs)).
  Proof.
    intros trim f ts tests fuel T G L. rewrite (generate_ok trim f ts T) in G. injection G as <-. pose proof (file_scalars _ _ _ T) as F. rewrite Forall_forall in F. split; intros H.
    - intros segs c I. specialize (F _ I). cbn [fst] in F. pose proof (in_map (test_of trim) _ _ I) as J. specialize (H _ J). specialize (L _ J). cbn [test_of t_input t_expected fst snd] in H, L.
      destruct (conform (concat segs) fuel ltac:(apply scalars_concat; exact F) L) as (segs' & E & S & _). rewrite H in E. injection E as E.
      assert (F' : Forall scalars segs') by (apply scalars_concat; rewrite (whole _ _ S); apply scalars_concat; exact F). rewrite (map_encode_inj _ _ F F' E). rewrite (map_encode_inj _ _ F F' E) in S. exact S.
    - intros t I. specialize (L t I). apply in_map_iff in I as ((segs & c) & <- & I). specialize (F _ I). cbn [fst] in F. cbn [test_of t_input t_expected fst snd] in *.
      destruct (conform (concat segs) fuel ltac:(apply scalars_concat; exact F) L) as (segs' & E & _ & U). rewrite E, (U segs (H segs c I)). reflexivity.
  Qed.
End Pass.
