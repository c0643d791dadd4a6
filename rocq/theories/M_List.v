(** Model of src/shared/jblist.c and of SortFEList in src/crashmail/misc.c.

    Memory is a map from addresses to nodes; of a node only the member Next is modelled.
    [None] as a result stands for the use of a NULL pointer or of memory that is not
    allocated. *)
From Verif Require Import Base M_Str M_Mem.

(** address -> Next of the node there; [None]: not allocated. A NULL pointer is [None]. *)
Definition heap := Z -> option (option Z).
Definition upd (h : heap) (a : Z) (v : option (option Z)) : heap := fun x => if x =? a then v else h x.
Record jblist := JL { First : option Z; Last : option Z }.
(** p->Next *)
Definition next (h : heap) (p : option Z) : option (option Z) := match p with Some a => h a | None => None end.
(** p->Next=v *)
Definition setnext (h : heap) (p v : option Z) : option heap :=
  match p with Some a => match h a with Some _ => Some (upd h a (Some v)) | None => None end | None => None end.
(** osFree *)
Definition free (h : heap) (a : Z) : heap := upd h a None.

(** jblist.c:8-12 *)
Definition jbNewList : jblist := JL None None.
(** jblist.c:14-24 *)
Definition jbAddNode (h : heap) (l : jblist) (n : Z) : option (heap * jblist) :=
  do x <- (match First l with
           | None => Some (h, Some n)
           | Some f => do h' <- setnext h (Last l) (Some n); Some (h', Some f)
           end);
  do h' <- setnext (fst x) (Some n) None;
  Some (h', JL (snd x) (Some n)).
(** jblist.c:26-39; the loop ends at the latest when [fuel] is used up *)
Fixpoint freeall (fuel : nat) (h : heap) (tmp : option Z) : option heap :=
  match fuel, tmp with
  | _, None => Some h
  | O, _ => None
  | S f, Some a => do tmp2 <- h a; freeall f (free h a) tmp2
  end.
Definition jbFreeList (fuel : nat) (h : heap) (l : jblist) : option (heap * jblist) :=
  do h' <- freeall fuel h (First l); Some (h', JL None None).
(** jblist.c:46-54: [k] = num - c; tmp, old and whether c == num at the end *)
Fixpoint walknum (k : nat) (h : heap) (tmp old : option Z) : option (option Z * option Z * bool) :=
  match k with
  | O => Some (tmp, old, true)
  | S k' => match tmp with
            | None => Some (None, old, false)
            | Some a => do n <- h a; walknum k' h n (if Nat.eqb k 1 then Some a else old)
            end
  end.
(** jblist.c:56-68, :85-97: taking [tmp] out; [first]: whether First is set *)
Definition unlink (h : heap) (l : jblist) (tmp : option Z) (old : option Z) (first : bool) : option (heap * jblist) :=
  do a <- tmp;
  do h <- (match old with Some _ => do n <- h a; setnext h old n | None => Some h end);
  do n <- h a;
  let f := if first then n else First l in
  let la := match n with None => old | Some _ => Last l end in
  Some (free h a, JL f la).
(** jblist.c:41-69 *)
Definition jbFreeNum (h : heap) (l : jblist) (num : nat) : option (heap * jblist) :=
  do x <- walknum num h (First l) None;
  let '(tmp, old, reached) := x in
  if reached then unlink h l tmp old (Nat.eqb num 0) else Some (h, l).
(** jblist.c:75-81: the node found, old *)
Definition ptreq (p q : option Z) : bool := match p, q with Some a, Some b => a =? b | None, None => true | _, _ => false end.
Fixpoint walknode (fuel : nat) (h : heap) (tmp : option Z) (n : Z) (old : option Z) : option (option Z * option Z) :=
  match fuel, tmp with
  | _, None => Some (None, old)
  | O, _ => None
  | S f, Some a =>
    do nx <- h a;
    let old := if ptreq nx (Some n) then Some a else old in
    if a =? n then Some (Some a, old) else walknode f h nx n old
  end.
(** jblist.c:71-98 *)
Definition jbFreeNode (fuel : nat) (h : heap) (l : jblist) (n : Z) : option (heap * jblist) :=
  do x <- walknode fuel h (First l) n None;
  match fst x with
  | Some a => unlink h l (fst x) (snd x) (ptreq (First l) (Some n))
  | None => Some (h, l)
  end.

(** ** SortFEList *)

(** strcasecmp: the difference of the first characters that differ *)
Fixpoint stricmp (a b : list Z) : Z :=
  match a, b with
  | [], [] => 0
  | [], y :: _ => 0 - tolower y
  | x :: _, [] => tolower x
  | x :: a', y :: b' => if tolower x =? tolower y then stricmp a' b' else tolower x - tolower y
  end.
(** Date and Name of a file entry *)
Record fentry := FE { fe_date : Z; fe_name : list Z }.
(** misc.c:131-143 DateCompareFE *)
Definition DateCompareFE (a b : fentry) : Z :=
  if fe_date a >? fe_date b then 1 else if fe_date a <? fe_date b then -1 else stricmp (fe_name a) (fe_name b).
(** misc.c:150-165: the nodes of the list *)
Fixpoint collect (fuel : nat) (h : heap) (p : option Z) : option (list Z) :=
  match fuel, p with
  | _, None => Some []
  | O, _ => None
  | S f, Some a => do n <- h a; do r <- collect f h n; Some (a :: r)
  end.
Fixpoint addall (h : heap) (l : jblist) (ns : list Z) : option (heap * jblist) :=
  match ns with
  | [] => Some (h, l)
  | n :: r => do x <- jbAddNode h l n; addall (fst x) (snd x) r
  end.
(** misc.c:145-177 SortFEList; qsort is given *)
Definition SortFEList (qsort : (Z -> Z -> Z) -> list Z -> list Z) (entry : Z -> fentry) (fuel : nat) (h : heap) (l : jblist) : option (heap * jblist) :=
  do ns <- collect fuel h (First l);
  match ns with
  | [] => Some (h, l)
  | _ => addall h jbNewList (qsort (fun a b => DateCompareFE (entry a) (entry b)) ns)
  end.
