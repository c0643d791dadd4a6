(** Specification: CRC-32, bit by bit (reflected, polynomial EDB88320, initial value FFFFFFFF,
    the result not complemented), of the lower-cased bytes. *)
From Verif Require Import Base.

Definition POLY : Z := 3988292384.
Definition crc_bit (x : Z) : Z := if Z.odd x then Z.lxor (Z.div2 x) POLY else Z.div2 x.
Fixpoint crc_bits (n : nat) (x : Z) : Z := match n with O => x | S m => crc_bits m (crc_bit x) end.
Definition crc_byte (crc b : Z) : Z := crc_bits 8 (Z.lxor crc b).
(** A..Z in lower case *)
Definition lower (b : Z) : Z := if (65 <=? b) && (b <=? 90) then b + 32 else b.
Definition crc32_jam (s : list Z) : Z := fold_left (fun crc b => crc_byte crc (lower b)) s 4294967295.
