(** Specification of the lastread records of a JAM base: a table from users to records. *)
From Verif Require Import Base M_Jam M_LastRead.

(** what programs do: several of them, h, may have the base open at the same time *)
Inductive lop :=
| LOpen (h : nat)
| LRead (h : nat) (user : Z)
| LWrite (h : nat) (user : Z) (r : lrec).
Inductive lout := OOpen | ORead (r : jres lrec) | OWrite (code : Z).

(** what happens to the file, and to the handles *)
Definition lworld : Type := list Z * (nat -> lrh).
Definition setlh (hs : nat -> lrh) (h : nat) (x : lrh) : nat -> lrh := fun k => if (k =? h)%nat then x else hs k.
Definition lstep (w : lworld) (op : lop) : option (lout * lworld) :=
  match op with
  | LOpen h => Some (OOpen, (fst w, setlh (snd w) h lrh0))
  | LRead h u => match JAM_ReadLastRead (fst w) (snd w h) u with
                 | None => None
                 | Some (x, h') => Some (ORead x, (fst w, setlh (snd w) h h'))
                 end
  | LWrite h u r => match JAM_WriteLastRead (fst w) (snd w h) u r with
                    | None => None
                    | Some (c, f) => Some (OWrite c, (f, snd w))
                    end
  end.
Fixpoint lrun (w : lworld) (ops : list lop) : option (list lout * lworld) :=
  match ops with
  | [] => Some ([], w)
  | op :: r => match lstep w op with
               | None => None
               | Some (o, w') => match lrun w' r with None => None | Some (os, w'') => Some (o :: os, w'') end
               end
  end.

(** ** The table *)
Definition table := Z -> option lrec.
Definition put (t : table) (u : Z) (r : lrec) : table := fun x => if x =? u then Some r else t x.
(** what each operation should give, and leave *)
Fixpoint answers (t : table) (ops : list lop) : list lout :=
  match ops with
  | [] => []
  | LOpen _ :: r => OOpen :: answers t r
  | LRead _ u :: r => ORead (match t u with Some x => Good x | None => Bad JAM_NO_USER end) :: answers t r
  | LWrite _ u x :: r => OWrite 0 :: answers (put t u x) r
  end.
Fixpoint after (t : table) (ops : list lop) : table :=
  match ops with
  | [] => t
  | LWrite _ u x :: r => after (put t u x) r
  | _ :: r => after t r
  end.
(** the file holds the records one behind the other; the first one of a user counts *)
Definition lrfile (rs : list lrec) : list Z := concat (map lrbytes rs).
Definition first_of (rs : list lrec) : table := fun u => find (fun r => r_id r =? u) rs.

Definition lrec_ok (r : lrec) : Prop := is_u32 (r_crc r) /\ is_u32 (r_id r) /\ is_u32 (r_last r) /\ is_u32 (r_high r).
(** a record is written for the user whose id it has *)
Definition lop_ok (op : lop) : Prop := match op with LWrite _ u r => lrec_ok r /\ r_id r = u | _ => True end.
Definition writes0 (op : lop) : Prop := match op with LWrite _ u _ => u = 0 | _ => False end.

(** the users written for the first time, in order *)
Fixpoint newcomers (seen : list Z) (ops : list lop) : list Z :=
  match ops with
  | [] => []
  | LWrite _ u _ :: r => if existsb (Z.eqb u) seen then newcomers seen r else u :: newcomers (seen ++ [u]) r
  | _ :: r => newcomers seen r
  end.
