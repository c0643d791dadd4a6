(** Specification of the maintenance of *.MSG areas. *)
From Coq Require Import Sorting.Sorted Sorting.Permutation.
From Verif Require Import Base M_Fs M_Msg S_Msg M_MsgMaint.

(** every file that counts as a message with a number from 2 on is called "<n>.msg" *)
Definition canonical (dir : fsys) : Prop := forall name n, In name (map fst dir) -> msgnum name n -> 2 <= n ->
  name = dec n ++ lit ".msg" /\ n < 4294967296.
(** the numbers of the messages in ascending order *)
Definition messages (dir : fsys) (ns : list Z) : Prop :=
  StronglySorted Z.lt ns /\ forall n, In n ns <-> 2 <= n < 4294967296 /\ msgfile dir n <> None.
(** what the standard says about qsort with the comparison of numbers *)
Definition num_sort (sort : list mmsg -> list mmsg) : Prop :=
  forall l, Permutation (sort l) l /\ StronglySorted (fun a b => m_num a <= m_num b) (sort l).

(** The messages that stay: with a limit to the number the last ones; of these, with a limit
    to the days, those not older (the difference of the days is taken as an unsigned 32 bit
    number). *)
Definition by_number (keepnum : Z) (ns : list Z) : list Z :=
  if keepnum =? 0 then ns else skipn (Z.to_nat (Z.of_nat (length ns) - keepnum)) ns.
Definition by_days (keepdays today : Z) (day : Z -> Z) (ns : list Z) : list Z :=
  if keepdays =? 0 then ns else filter (fun n => (today - day n) mod 4294967296 <=? keepdays) ns.
Definition kept (maint : bool) (keepnum keepdays today : Z) (day : Z -> Z) (ns : list Z) : list Z :=
  if maint then by_days keepdays today day (by_number keepnum ns) else ns.
(** the number of the p-th of them afterwards *)
Definition newnum (pack : bool) (K : list Z) (p : nat) : Z := if pack then 2 + Z.of_nat p else nth p K 0.

(** the high water mark *)
Definition mark_of (dir : fsys) : Z :=
  match msgfile dir 1 with Some b => if Nat.leb 190 (length b) then replyto_of b else 0 | None => 0 end.
(** where the p-th of them is while the area is renumbered, when [i] have their new numbers *)
Definition underway (K : list Z) (i p : nat) : Z := if Nat.ltb p i then 2 + Z.of_nat p else nth p K 0.
