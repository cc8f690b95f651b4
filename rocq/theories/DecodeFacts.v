(** utf8.DecodeRune reads the character at the start of well-formed text. *)
From Verif Require Import Base Utf8 SpecUtf8.
Local Open Scope N_scope.

Lemma decode_utf8 : forall x rest, scalar x -> DecodeRune (utf8 x ++ rest) = (x, length (utf8 x)).
Proof.
  intros x rest Hx. unfold utf8.
  destruct (N.ltb_spec x 0x80) as [H1|H1].
  { cbn [app DecodeRune length]. rewrite (proj2 (N.ltb_lt x 0x80)) by lia. reflexivity. }
  pose proof (N.div_mod x 64 ltac:(lia)) as E1. pose proof (N.mod_lt x 64 ltac:(lia)) as M1.
  pose proof (N.div_mod x 4096 ltac:(lia)) as E2.
  pose proof (N.div_div x 64 64 ltac:(lia) ltac:(lia)) as D2. change (64 * 64) with 4096 in D2.
  pose proof (N.div_mod (x / 64) 64 ltac:(lia)) as E3. pose proof (N.mod_lt (x / 64) 64 ltac:(lia)) as M3. rewrite D2 in E3.
  pose proof (N.div_div x 4096 64 ltac:(lia) ltac:(lia)) as D3. change (4096 * 64) with 262144 in D3.
  pose proof (N.div_mod (x / 4096) 64 ltac:(lia)) as E4. pose proof (N.mod_lt (x / 4096) 64 ltac:(lia)) as M4. rewrite D3 in E4.
  clear D2 D3 E2. set (a := x / 64) in *. set (b := x / 4096) in *. set (c := x / 262144) in *.
  set (r1 := x mod 64) in *. set (r2 := a mod 64) in *. set (r3 := b mod 64) in *. clearbody a b c r1 r2 r3.
  assert (CONT : forall r, r < 64 -> isCont (128 + r) = true).
  { intros r Hr. unfold isCont, between. rewrite (proj2 (N.leb_le _ _)), (proj2 (N.leb_le _ _)) by lia. reflexivity. }
  destruct (N.ltb_spec x 0x800) as [H2|H2].
  { cbn [app length]. unfold DecodeRune. rewrite (proj2 (N.ltb_ge _ _)) by lia.
    assert (between 194 223 (192 + a) = true) as -> by (unfold between; rewrite !(proj2 (N.leb_le _ _)) by lia; reflexivity).
    rewrite CONT by lia. f_equal. lia. }
  destruct (N.ltb_spec x 0x10000) as [H3|H3].
  { cbn [app length]. unfold DecodeRune. rewrite (proj2 (N.ltb_ge _ _)) by lia.
    assert (between 194 223 (224 + b) = false) as -> by (unfold between; rewrite (proj2 (N.leb_gt _ 223)) by lia; apply andb_false_r).
    assert (between 224 239 (224 + b) = true) as -> by (unfold between; rewrite !(proj2 (N.leb_le _ _)) by lia; reflexivity).
    assert (accept2 (224 + b) (128 + r2) = true) as ->.
    { unfold accept2. destruct (N.eqb_spec (224 + b) 224); [unfold between; rewrite !(proj2 (N.leb_le _ _)) by lia; reflexivity|].
      destruct (N.eqb_spec (224 + b) 237); [unfold between; rewrite !(proj2 (N.leb_le _ _)) by (unfold scalar in Hx; lia); reflexivity|].
      rewrite (proj2 (N.eqb_neq _ 240)), (proj2 (N.eqb_neq _ 244)) by lia. apply CONT. lia. }
    rewrite CONT by lia. cbn [andb]. f_equal. lia. }
  assert (x < 0x110000) by (unfold scalar in Hx; lia).
  cbn [app length]. unfold DecodeRune. rewrite (proj2 (N.ltb_ge _ _)) by lia.
  assert (between 194 223 (240 + c) = false) as -> by (unfold between; rewrite (proj2 (N.leb_gt _ 223)) by lia; apply andb_false_r).
  assert (between 224 239 (240 + c) = false) as -> by (unfold between; rewrite (proj2 (N.leb_gt _ 239)) by lia; apply andb_false_r).
  assert (between 240 244 (240 + c) = true) as -> by (unfold between; rewrite !(proj2 (N.leb_le _ _)) by lia; reflexivity).
  assert (accept2 (240 + c) (128 + r3) = true) as ->.
  { unfold accept2. rewrite (proj2 (N.eqb_neq _ 224)), (proj2 (N.eqb_neq _ 237)) by lia.
    destruct (N.eqb_spec (240 + c) 240); [unfold between; rewrite !(proj2 (N.leb_le _ _)) by lia; reflexivity|].
    destruct (N.eqb_spec (240 + c) 244); [unfold between; rewrite !(proj2 (N.leb_le _ _)) by lia; reflexivity|]. apply CONT. lia. }
  rewrite !CONT by lia. cbn [andb]. f_equal. lia.
Qed.
