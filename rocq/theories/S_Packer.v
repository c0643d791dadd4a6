(** Specification of recognition patterns. *)
From Verif Require Import Base M_Packer.

(** a pattern asks for given bytes, or for any byte *)
Inductive elem := Byte (b : Z) | Any.
Definition fits (e : elem) (c : Z) : Prop := match e with Byte b => c = b | Any => True end.
(** the file starts with bytes that fit *)
Definition starts (es : list elem) (f : list Z) : Prop := exists a b, f = a ++ b /\ Forall2 fits es a.
Definition digit_value (c v : Z) : Prop := (48 <= c <= 57 /\ v = c - 48) \/ (65 <= c <= 70 /\ v = c - 55) \/ (97 <= c <= 102 /\ v = c - 87).
(** how it is written *)
Inductive written : list elem -> list Z -> Prop :=
| wr_end : written [] []
| wr_hex a b x y es s : digit_value a x -> digit_value b y -> written es s -> written (Byte (16 * x + y) :: es) (36 :: a :: b :: s)
| wr_any es s : written es s -> written (Any :: es) (63 :: s)
| wr_char c es s : c <> 36 -> c <> 63 -> written es s -> written (Byte c :: es) (c :: s).
