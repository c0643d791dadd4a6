(** Specification of linked lists: sequences of nodes. *)
From Coq Require Import Permutation Sorted.
From Verif Require Import Base M_List.

(** following Next from [p] gives the nodes [l] *)
Fixpoint chain (h : heap) (p : option Z) (l : list Z) : Prop :=
  match l with
  | [] => p = None
  | a :: r => p = Some a /\ exists n, h a = Some n /\ chain h n r
  end.
Definition lastof (l : list Z) : option Z := match rev l with a :: _ => Some a | [] => None end.
(** the list [j] in memory is the sequence [l] *)
Definition represents (h : heap) (j : jblist) (l : list Z) : Prop := chain h (First j) l /\ Last j = lastof l /\ NoDup l.

(** the operations, and what they do to sequences; [None]: not allowed *)
Inductive lop := Add (n : Z) (garbage : option Z) | FreeNum (k : nat) | FreeNode (n : Z) | FreeList.
Definition seqop (l : list Z) (o : lop) : option (list Z) :=
  match o with
  | Add n _ => if in_dec Z.eq_dec n l then None else Some (l ++ [n])
  | FreeNum k => if Nat.eqb k (length l) then None else Some (firstn k l ++ skipn (S k) l)
  | FreeNode n => Some (remove Z.eq_dec n l)
  | FreeList => Some []
  end.
(** the same on memory; a node that is added has just been allocated, with any contents *)
Definition memop (s : heap * jblist) (o : lop) (fuel : nat) : option (heap * jblist) :=
  match o with
  | Add n g => jbAddNode (upd (fst s) n (Some g)) (snd s) n
  | FreeNum k => jbFreeNum (fst s) (snd s) k
  | FreeNode n => jbFreeNode fuel (fst s) (snd s) n
  | FreeList => jbFreeList fuel (fst s) (snd s)
  end.
(** all memory in use belongs to the list *)
Definition holds (s : heap * jblist) (l : list Z) : Prop :=
  represents (fst s) (snd s) l /\ forall a, ~ In a l -> fst s a = None.

(** ** Sorting *)
(** what the standard asks of the comparison given to qsort, for the elements [l] *)
Definition consistent (cmp : Z -> Z -> Z) (l : list Z) : Prop :=
  (forall a b, In a l -> In b l -> cmp a b <= 0 <-> cmp b a >= 0) /\
  (forall a b c, In a l -> In b l -> In c l -> cmp a b <= 0 -> cmp b c <= 0 -> cmp a c <= 0).
(** what the standard promises *)
Definition qsort_ok (qsort : (Z -> Z -> Z) -> list Z -> list Z) : Prop :=
  forall cmp l, consistent cmp l -> Permutation (qsort cmp l) l /\ StronglySorted (fun a b => cmp a b <= 0) (qsort cmp l).
(** older, or as old and first by name; names are compared without regard to case *)
Inductive name_le : list Z -> list Z -> Prop :=
| nl_end b : name_le [] b
| nl_less x a y b : tolower x < tolower y -> name_le (x :: a) (y :: b)
| nl_same x a y b : tolower x = tolower y -> name_le a b -> name_le (x :: a) (y :: b).
Definition before (a b : fentry) : Prop := fe_date a < fe_date b \/ (fe_date a = fe_date b /\ name_le (fe_name a) (fe_name b)).
