(** There are data files that meet the specification. *)
From Verif Require Import Base SpecUtf8 SpecUcd SpecData SpecDataFile SpecFiles TriegenRun DataFacts GenFacts MainFacts.
From Coq Require Import String.
Local Open Scope N_scope.

Lemma digit_exists : forall d, d < 16 -> exists c, digit c d.
Proof. intros d L. destruct (N.lt_ge_cases d 10) as [H|H]; [exists (0x30 + d); left; lia|exists (0x41 + (d - 10)); right; left; lia]. Qed.
Lemma hex_exists : forall n, exists s, hexadecimal s n.
Proof.
  intros n. induction n as [n IH] using (well_founded_induction N.lt_wf_0). destruct (N.lt_ge_cases n 16) as [L|L].
  - destruct (digit_exists n L) as (c & D). exists [c]. constructor. exact D.
  - pose proof (N.div_mod n 16 ltac:(discriminate)) as E. pose proof (N.mod_lt n 16 ltac:(discriminate)) as M.
    destruct (IH (n / 16)) as (s & H); [apply N.div_lt; lia|]. destruct (digit_exists (n mod 16) M) as (c & D). exists (s ++ [c]). rewrite E. constructor; assumption.
Qed.

Definition entry_ok (e : entry) : Prop := let '(lo, hi, n) := e in lo <= hi <= 0x10FFFF /\ name n.
Lemma file_exists : forall es, Forall entry_ok es -> exists f, file_says f es.
Proof.
  induction es as [|[[lo hi] n] es IH]; intros F; [exists []; constructor|]. inversion F as [|? ? HE Fs]; subst. destruct HE as [L Hn]. destruct (IH Fs) as (f & Hf).
  destruct (hex_exists lo) as (s & Hs). destruct (hex_exists hi) as (s' & Hs').
  exists (((s ++ [0x2E; 0x2E] ++ s') ++ [0x20] ++ [0x3B] ++ ([0x20] ++ n ++ [0x20]) ++ [0x23; 0x21] ++ [0x0A]) ++ f).
  change ((lo, hi, n) :: es) with ([(lo, hi, n)] ++ es). apply file_line; [|exact Hf]. apply line_entry.
  - apply span_range; [exact Hs|exact Hs'|lia].
  - lia.
  - constructor; [left; reflexivity|constructor].
  - apply label_one; [constructor; [left; reflexivity|constructor]|constructor; [left; reflexivity|constructor]|exact Hn].
  - constructor. constructor; [split; discriminate|constructor].
Qed.

(** The entries of a family, one code point each. *)
Definition entries_of (d : data) : list entry := flat_map (fun e => map (fun cp => (cp, cp, fst e)) (scalars_in (snd e))) d.
Lemma in_entries_of : forall d lo hi p, In (lo, hi, p) (entries_of d) <-> lo = hi /\ exists f, In (p, f) d /\ scalar lo /\ f lo = true.
Proof.
  intros d lo hi p. unfold entries_of. rewrite in_flat_map. split.
  - intros ([p' f] & I & H). cbn [fst snd] in H. apply in_map_iff in H as (cp & E & J). injection E as <- <- <-. split; [reflexivity|]. exists f. split; [exact I|]. exact (proj1 (in_scalars_in f cp) J).
  - intros [<- (f & I & S & F)]. exists (p, f). split; [exact I|]. cbn [fst snd]. apply in_map_iff. exists lo. split; [reflexivity|]. exact (proj2 (in_scalars_in f lo) (conj S F)).
Qed.
Lemma listed_entries : forall d p f cp, NoDup (map fst d) -> In (p, f) d -> listed (entries_of d) p cp <-> scalar cp /\ f cp = true.
Proof.
  intros d p f cp N I. split.
  - intros (lo & hi & J & L). apply in_entries_of in J as [<- (f' & I' & S & F)]. assert (cp = lo) by lia. subst cp. rewrite (nodup_fst_inj _ _ d p f f' N I I'). split; assumption.
  - intros [S F]. exists cp, cp. split; [|lia]. apply in_entries_of. split; [reflexivity|]. exists f. repeat split; assumption.
Qed.
Lemma entries_ok : forall d, Forall name (map fst d) -> Forall entry_ok (entries_of d).
Proof.
  intros d F. rewrite Forall_forall. intros [[lo hi] p] I. apply in_entries_of in I as [<- (f & I & S & _)]. split; [destruct S; lia|].
  rewrite Forall_forall in F. apply F. apply in_map_iff. exists (p, f). split; [reflexivity|exact I].
Qed.

Local Opaque scalars_in entries_of.

Definition is_name_char (c : N) : bool := ((0x30 <=? c) && (c <=? 0x39)) || ((0x41 <=? c) && (c <=? 0x5A)) || ((0x61 <=? c) && (c <=? 0x7A)) || (c =? 0x5F).
Definition is_name (n : bytes) : bool := negb (is_nil n) && forallb is_name_char n.
Lemma is_name_ok : forall n, is_name n = true -> name n.
Proof.
  intros n E. apply andb_true_iff in E as [E1 E2]. split; [intros ->; discriminate|]. rewrite Forall_forall. rewrite forallb_forall in E2. intros c I. specialize (E2 c I).
  unfold is_name_char in E2. unfold name_char. rewrite !orb_true_iff, !andb_true_iff, !N.leb_le, N.eqb_eq in E2. lia.
Qed.

Definition own (d : data) : data := filter (fun e => negb (inb (fst e) elsewhere)) d.
Lemma in_own : forall d p f, In (p, f) (own d) <-> In (p, f) d /\ ~ In p elsewhere.
Proof. intros d p f. unfold own. rewrite filter_In. cbn [fst]. rewrite negb_true_iff, <- not_true_iff_false, inb_in. tauto. Qed.
(** Code points among which every property occurs. *)
Definition samples : list N := [0x0A; 0x0D; 0x85; 0x20; 0x22; 0x27; 0x2C; 0x2E; 0x21; 0x30; 0x3A; 0x41; 0x61; 0x5F; 0xAD; 0x300; 0x5D0; 0x600; 0x903; 0x915; 0x1100; 0x1161; 0x11A8; 0xAC00; 0xAC01; 0x200D; 0x30A2; 0x1F1E6; 0x28; 0x3B; 0x2028].
Definition inhabited_b (d : data) : bool := forallb (fun e => existsb (snd e) samples) d.
Lemma samples_scalar : Forall scalar samples.
Proof. unfold samples. repeat (apply Forall_cons; [first [left; reflexivity|right; split; [discriminate|reflexivity]]|]). apply Forall_nil. Qed.

Lemma break_exists : forall d, NoDup (map fst d) -> Forall name (map fst d) -> inhabited_b (own d) = true -> exists f es, file_says f es /\ break_file d es.
Proof.
  intros d N F IB. assert (No : NoDup (map fst (own d))).
  { unfold own. clear F IB. induction d as [|[p f] d IH]; cbn [filter map fst]; [constructor|]. cbn [map fst] in N. inversion N as [|? ? Np Nd]; subst.
    destruct (negb (inb p elsewhere)); [|exact (IH Nd)]. cbn [map fst]. constructor; [|exact (IH Nd)]. intros I. apply Np. apply in_map_iff in I as ([p' f'] & E & I). cbn [fst] in E. subst p'. apply filter_In in I as [I _]. apply in_map_iff. exists (p, f'). split; [reflexivity|exact I]. }
  destruct (file_exists (entries_of (own d))) as (f & Hf).
  { apply entries_ok. rewrite Forall_forall in *. intros p I. apply F. apply in_map_iff in I as ([p' g] & E & I). cbn [fst] in E. subst p'. apply in_own in I as [I _]. apply in_map_iff. exists (p, g). split; [reflexivity|exact I]. }
  exists f, (entries_of (own d)). split; [exact Hf|]. split.
  - intros p. split.
    + intros (lo & hi & I). apply in_entries_of in I as [_ (g & I & _)]. apply in_own in I as [I H]. split; [|exact H]. apply in_map_iff. exists (p, g). split; [reflexivity|exact I].
    + intros [I H]. apply in_map_iff in I as ([p' g] & E & I). cbn [fst] in E. subst p'. assert (J : In (p, g) (own d)) by (apply in_own; split; assumption).
      unfold inhabited_b in IB. rewrite forallb_forall in IB. specialize (IB _ J). cbn [snd] in IB. apply existsb_exists in IB as (cp & Ic & Gc). exists cp, cp. apply in_entries_of. split; [reflexivity|].
      exists g. split; [exact J|]. split; [|exact Gc]. pose proof samples_scalar as SS. rewrite Forall_forall in SS. exact (SS cp Ic).
  - intros p g I H cp. apply listed_entries; [exact No|]. apply in_own. split; assumption.
Qed.

Local Open Scope string_scope.
Definition other_data : data := [(str "Extended_Pictographic", ExtPict); (str "InCB_Consonant", fun cp => incb_beq (InCB cp) InCB_Consonant);
  (str "InCB_Linker", fun cp => incb_beq (InCB cp) InCB_Linker); (str "InCB_Extend", fun cp => incb_beq (InCB cp) InCB_Extend)].
Lemma others_exist : exists f es, file_says f es /\ emoji_file es /\ incb_file es.
Proof.
  assert (N : NoDup (map fst other_data)).
  { cbn [map fst other_data]. repeat (apply NoDup_cons; [cbn [In]; intros H; repeat destruct H as [H|H]; (discriminate H || contradiction)|]). apply NoDup_nil. }
  destruct (file_exists (entries_of other_data)) as (f & Hf).
  { apply entries_ok. cbn [map fst other_data]. repeat (apply Forall_cons; [apply is_name_ok; reflexivity|]). apply Forall_nil. }
  exists f, (entries_of other_data). split; [exact Hf|]. split; [|split; [|split]]; intros cp.
  - apply listed_entries; [exact N|left; reflexivity].
  - rewrite <- incb_beq_ok. apply (listed_entries other_data _ (fun cp => incb_beq (InCB cp) InCB_Consonant)); [exact N|right; left; reflexivity].
  - rewrite <- incb_beq_ok. apply (listed_entries other_data _ (fun cp => incb_beq (InCB cp) InCB_Linker)); [exact N|do 2 right; left; reflexivity].
  - rewrite <- incb_beq_ok. apply (listed_entries other_data _ (fun cp => incb_beq (InCB cp) InCB_Extend)); [exact N|do 3 right; left; reflexivity].
Qed.

Local Close Scope string_scope.
(** The ranges of Katakana are ranges of ideographs. *)
Lemma range_value_in : forall (A : Type) (d : A) t cp, range_value d t cp = d \/ exists lo hi, In (lo, hi, range_value d t cp) t /\ lo <= cp <= hi.
Proof.
  intros A d. induction t as [|[[lo hi] v] t IH]; intros cp; cbn [range_value]; [left; reflexivity|].
  destruct ((lo <=? cp) && (cp <=? hi))%bool eqn:E.
  - right. apply andb_true_iff in E as [E1 E2]. apply N.leb_le in E1, E2. exists lo, hi. split; [left; reflexivity|lia].
  - destruct (IH cp) as [Q|(lo' & hi' & I & L)]; [left; exact Q|right; exists lo', hi'; split; [right; exact I|exact L]].
Qed.
Lemma katakana_sweep : forallb (fun e => let '(lo, hi, v) := e in if wb_beq v WB_Katakana then forallb BleveIdeographic (run lo (S (N.to_nat (hi - lo)))) else true) wb_table = true.
Proof. vm_compute. reflexivity. Qed.
Lemma katakana_ideographic : forall cp, WB cp = WB_Katakana -> BleveIdeographic cp = true.
Proof.
  intros cp K. unfold WB in K. destruct (range_value_in _ WB_Other wb_table cp) as [E|(lo & hi & I & L)]; [rewrite E in K; discriminate K|]. rewrite K in I.
  pose proof katakana_sweep as W. rewrite forallb_forall in W. specialize (W _ I). cbn [wb_beq] in W. change (wb_beq WB_Katakana WB_Katakana) with true in W. cbn [andb] in W.
  rewrite forallb_forall in W. apply W. apply in_run. lia.
Qed.
Lemma ideographs_exist : exists ideo, ideographs ideo.
Proof.
  exists (scalars_in BleveIdeographic). intros cp. rewrite in_scalars_in. split; [|intros H; left; exact H]. intros [H|[S K]]; [exact H|]. split; [exact S|]. exact (katakana_ideographic cp K).
Qed.
