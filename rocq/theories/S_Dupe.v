(** Specification of duplicate detection: a window of the last N recorded messages, each
    identified by its MSGID and its area. *)
From Verif Require Import Base M_Mem M_Dupe.

Definition dkey : Type := list Z * list Z.
Definition lastn {A} (n : nat) (l : list A) : list A := skipn (length l - n) l.
Definition keyin (k : dkey) (w : list dkey) : bool := existsb (fun x => streq (fst k) (fst x) && streq (snd k) (snd x)) w.

(** what the user does: check a message, restart with closing the database, restart without
    (the program was killed between two messages) *)
Inductive dop := Check (k : dkey) | Restart | Kill.
(** the window and the answers so far *)
Definition dspec (N : nat) (s : list dkey * list bool) (op : dop) : list dkey * list bool :=
  match op with
  | Check k =>
    match fst k with
    | [] => (fst s, snd s ++ [false])
    | _ => if keyin k (fst s) then (fst s, snd s ++ [true]) else (lastn N (fst s ++ [k]), snd s ++ [false])
    end
  | _ => s
  end.
(** a MSGID and an area as the program stores them: at most 79 bytes; ASCII *)
Definition dkey_ok (k : dkey) : Prop :=
  Forall (fun c => 1 <= c < 128) (fst k) /\ (length (fst k) <= 79)%nat /\
  cstring (snd k) /\ (length (snd k) <= 79)%nat.
Definition dop_ok (op : dop) : Prop := match op with Check k => dkey_ok k | _ => True end.

(** the program *)
Definition drun1 (N : nat) (s : dupedb * list bool) (op : dop) : option (dupedb * list bool) :=
  match op with
  | Check k => match CheckDupe N (fst s) (fst k) (snd k) with Some (b, db) => Some (db, snd s ++ [b]) | None => None end
  | Restart => do f <- CloseDupeDB (fst s);
               match OpenDupeDB N f with Some (Some db) => Some (db, snd s) | _ => None end
  | Kill => match OpenDupeDB N (d_file (fst s)) with Some (Some db) => Some (db, snd s) | _ => None end
  end.
Fixpoint drun (N : nat) (s : dupedb * list bool) (ops : list dop) : option (dupedb * list bool) :=
  match ops with [] => Some s | op :: r => do s' <- drun1 N s op; drun N s' r end.

(** a well-formed database file *)
Definition wfrec (r : list Z) : Prop := (1 <= length r <= 300)%nat.
Definition recfile (rs : list (list Z)) : list Z := concat (map (fun r => le16 (Z.of_nat (length r)) ++ r) rs).
