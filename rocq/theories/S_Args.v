(** What a command line means. *)
From Verif Require Import Base M_Args.

(** A command line consists of keywords with a value, of switches and of words without
    keyword. [j] is the place in the program's table of the argument which is meant. *)
Inductive item :=
| IKey (j : nat) (kw v : list Z)
| ISwitch (j : nat) (kw : list Z)
| IFree (w : list Z).
Definition words (it : item) : list (list Z) := match it with IKey _ kw v => [kw; v] | ISwitch _ kw => [kw] | IFree w => [w] end.
Definition line (its : list item) : list (list Z) := concat (map words its).

(** keywords are written in upper or lower case; what is not a keyword is a free word *)
Definition names (tbl : list arg) (j : nat) (kw : list Z) (t : atype) : Prop :=
  exists a n, nth_error tbl j = Some a /\ a_type a = t /\ a_name a = Some n /\ map tolower kw = map tolower n.
Definition item_ok (tbl : list arg) (it : item) : Prop :=
  match it with
  | IKey j kw _ => names tbl j kw AString
  | ISwitch j kw => names tbl j kw ABool
  | IFree w => forall a n, In a tbl -> a_name a = Some n -> map tolower w <> map tolower n
  end.
(** the keywords of a table differ *)
Definition distinct (tbl : list arg) : Prop :=
  forall i j a b n m, nth_error tbl i = Some a -> nth_error tbl j = Some b -> a_name a = Some n -> a_name b = Some m ->
    map tolower n = map tolower m -> i = j.

(** what is given by keyword, and the free words *)
Definition slot (it : item) : option nat := match it with IKey j _ _ => Some j | ISwitch j _ => Some j | IFree _ => None end.
Fixpoint named (its : list item) (j : nat) : option aval :=
  match its with
  | [] => None
  | IKey k _ v :: r => if (j =? k)%nat then Some (VWord v) else named r j
  | ISwitch k _ :: r => if (j =? k)%nat then Some VTrue else named r j
  | IFree _ :: r => named r j
  end.
Fixpoint free (its : list item) : list (list Z) :=
  match its with [] => [] | IFree w :: r => w :: free r | _ :: r => free r end.
Definition needsnokey (a : arg) : bool := match a_name a with None => true | Some _ => a_auto a end.

(** the data of the arguments from number [j] on: what is given by keyword; the free words, in
    order, for those which need no keyword *)
Fixpoint meaning (tbl : list arg) (j : nat) (nm : nat -> option aval) (fs : list (list Z)) : adata :=
  match tbl with
  | [] => []
  | a :: r =>
    match nm j, needsnokey a, fs with
    | Some v, _, _ => Some v :: meaning r (S j) nm fs
    | None, true, w :: fs' => Some (VWord w) :: meaning r (S j) nm fs'
    | None, _, _ => None :: meaning r (S j) nm fs
    end
  end.
(** how many free words there is room for *)
Fixpoint room (tbl : list arg) (j : nat) (nm : nat -> option aval) : nat :=
  match tbl with
  | [] => O
  | a :: r => ((match nm j with None => if needsnokey a then 1 else 0 | Some _ => 0 end) + room r (S j) nm)%nat
  end.

(** No argument is given twice. Arguments which need no keyword but are given by keyword
    come before all free words. *)
Definition plain (tbl : list arg) (its : list item) : Prop :=
  Forall (item_ok tbl) its /\
  NoDup (concat (map (fun it => match slot it with Some j => [j] | None => [] end) its)) /\
  exists A B, its = A ++ B /\ free A = [] /\
    (forall it j a, In it B -> slot it = Some j -> nth_error tbl j = Some a -> needsnokey a = false).
