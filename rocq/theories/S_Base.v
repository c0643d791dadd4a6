(** What a user may expect of the bases a run opens, stated without the table of the program. *)
From Verif Require Import Base M_Fs M_Jam M_Base.

(** MAXOPEN, 5 when it is not given *)
Definition places (n : nat) : nat := match n with O => 5 | _ => n end.

(** [open]: the bases that are open, each with its area. In an orderly run a base is opened
    only if it is a new one and a place is left, only open bases are handed out, and only for
    the area they were opened for, only open bases are closed, and none is open at the end. *)
Fixpoint orderly (max : nat) (open : list (Z * Z)) (t : list ev) : Prop :=
  match t with
  | [] => open = []
  | EOpen h a :: r => ~ In h (map fst open) /\ (length open < max)%nat /\ orderly max ((h, a) :: open) r
  | EGive h a :: r => In (h, a) open /\ orderly max open r
  | EClose h :: r => In h (map fst open) /\ orderly max (filter (fun x => negb (fst x =? h)) open) r
  end.
Fixpoint opened (t : list ev) : list Z :=
  match t with [] => [] | EOpen h _ :: r => h :: opened r | _ :: r => opened r end.

(** A store of at most [max] bases, the one used last in front. *)
Fixpoint hasbase (a : Z) (c : list (Z * Z)) : option Z :=
  match c with [] => None | (b, h) :: r => if b =? a then Some h else hasbase a r end.
Definition without (a : Z) (c : list (Z * Z)) : list (Z * Z) := filter (fun x => negb (fst x =? a)) c.
(** One request for area [a]; [ok]: the area can be opened, then as base [h]. *)
Definition lru (max : nat) (a : Z) (ok : bool) (h : Z) (c : list (Z * Z)) : list (Z * Z) * list ev :=
  match hasbase a c with
  | Some h0 => ((a, h0) :: without a c, [EGive h0 a])
  | None =>
    let '(c1, closed) := if Nat.ltb (length c) max then (c, []) else (removelast c, [EClose (snd (last c (0, 0)))]) in
    if ok then ((a, h) :: c1, closed ++ [EOpen h a; EGive h a]) else (c1, closed)
  end.
(** [rs]: the areas with what was answered *)
Fixpoint lrulog (max : nat) (rs : list (Z * option Z)) (next : Z) (c : list (Z * Z)) : list ev :=
  match rs with
  | [] => []
  | (a, r) :: rs =>
    let ok := match r with Some _ => true | None => false end in
    let '(c', t) := lru max a ok next c in
    t ++ lrulog max rs (match hasbase a c with Some _ => next | None => if ok then next + 1 else next end) c'
  end.
Fixpoint given (t : list ev) : list (Z * Z) :=
  match t with [] => [] | EGive h a :: r => (a, h) :: given r | _ :: r => given r end.

(** the files of a base *)
Definition base_at (fs : list (list Z * list Z)) (p : list Z) : option jam :=
  match fget fs (p ++ lit ".jhr"), fget fs (p ++ lit ".jdt"), fget fs (p ++ lit ".jdx"), fget fs (p ++ lit ".jlr") with
  | Some h, Some t, Some x, Some l => Some (JAM h t x l)
  | _, _, _, _ => None
  end.
Definition basefile (p f : list Z) : Prop := exists e, In e exts /\ f = p ++ e.
