(** Specification: UTF-8 (RFC 3629). *)
From Verif Require Import Base.
Local Open Scope N_scope.

(** Unicode scalar values. *)
Definition scalar (cp : N) : Prop := cp < 0xD800 \/ 0xE000 <= cp < 0x110000.

(** The encoding of one scalar value. *)
Definition utf8 (cp : N) : bytes :=
  if cp <? 0x80 then [cp]
  else if cp <? 0x800 then [0xC0 + cp / 0x40; 0x80 + cp mod 0x40]
  else if cp <? 0x10000 then [0xE0 + cp / 0x1000; 0x80 + (cp / 0x40) mod 0x40; 0x80 + cp mod 0x40]
  else [0xF0 + cp / 0x40000; 0x80 + (cp / 0x1000) mod 0x40; 0x80 + (cp / 0x40) mod 0x40; 0x80 + cp mod 0x40].

(** The encoding of a text. *)
Definition encode (cps : list N) : bytes := concat (map utf8 cps).
Definition scalars (cps : list N) : Prop := Forall scalar cps.
Definition well_formed (d : bytes) : Prop := exists cps, scalars cps /\ d = encode cps.

(** The number of bytes announced by a lead byte; bytes that cannot start a sequence stand for themselves. *)
Definition announced (lead : N) : nat :=
  if lead <? 0xC2 then 1 else if lead <? 0xE0 then 2 else if lead <? 0xF0 then 3 else if lead <? 0xF8 then 4 else 1.

(** The first character of [d], if there is one, is not cut off by the end of [d]. *)
Definition whole_start (d : bytes) : Prop := match d with [] => True | lead :: _ => (announced lead <= length d)%nat end.

Example utf8_euro : utf8 0x20AC = [0xE2; 0x82; 0xAC]. Proof. reflexivity. Qed.
Example utf8_emoji : utf8 0x1F600 = [0xF0; 0x9F; 0x98; 0x80]. Proof. reflexivity. Qed.
