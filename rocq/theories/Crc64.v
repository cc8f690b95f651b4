(** Model of the hash used by internal/gen/triegen/triegen.go:399 (crcTable = crc64.MakeTable(crc64.ISO)), 406-408 and 447-456:
    hash/crc64 of the Go standard library (not part of /repo; modelled from its documentation: reflected polynomial
    0xD800000000000000, initial value and result complemented), over words written with binary.BigEndian. *)
From Verif Require Import Base Trie.
Local Open Scope N_scope.

Definition iso : N := 0xD800000000000000.
Definition mask64 : N := 0xFFFFFFFFFFFFFFFF.

(** crc64.MakeTable: eight steps of the shift register for each byte. *)
Definition crc_step (c : N) : N := if N.odd c then N.lxor (N.div2 c) iso else N.div2 c.
Definition crc_entry (i : N) : N := Nat.iter 8 crc_step i.
Definition crc_table : tree := fold_left (fun t i => tset (N.succ_pos i) (crc_entry i) t) (map N.of_nat (seq 0 256)) Lf.

(** crc64.update, one byte. *)
Definition crc_byte (c v : N) : N := N.lxor (tget (N.succ_pos (N.lxor (N.land c 0xFF) v)) crc_table) (N.shiftr c 8).

(** The eight bytes of a word, most significant first (binary.BigEndian). *)
Definition be64 (w : N) : list N := map (fun i => N.land (N.shiftr w i) 0xFF) [56; 48; 40; 32; 24; 16; 8; 0].

Definition crc64 (words : list N) : N :=
  N.lxor (fold_left (fun c w => fold_left crc_byte (be64 w) c) words mask64) mask64.

(** The published check value of CRC-64/GO-ISO: "123456789" has b90956c775a41001. *)
Example crc64_check : N.lxor (fold_left crc_byte [0x31; 0x32; 0x33; 0x34; 0x35; 0x36; 0x37; 0x38; 0x39] mask64) mask64 = 0xb90956c775a41001.
Proof. vm_compute. reflexivity. Qed.
