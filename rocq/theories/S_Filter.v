(** Specification of the text search. *)
From Verif Require Import Base M_Node4D M_Pat M_Str M_Mem M_Cfg M_Pkt M_Dupe M_Echo M_Expr M_Filter.

(** pat occurs in text at position i, ignoring case *)
Definition occurs_at (pat text : list Z) (i : nat) : Prop :=
  exists a m b, text = a ++ m ++ b /\ length a = i /\ map tolower m = map tolower pat.
(** the last character of pat occurs nowhere else in it, ignoring case *)
Definition last_once (pat : list Z) : Prop :=
  exists p c, pat = p ++ [c] /\ Forall (fun x => tolower x <> tolower c) p.
(** a pattern has a blind spot if it ends as it begins, or if an earlier part of it, s, which
    is also its end, follows a character c which does not precede that end, and which is the
    last character of the pattern or occurs no more behind that part *)
Definition blindspot (p : list Z) : Prop :=
  exists s r, s <> [] /\ r <> [] /\
    ((p = s ++ r /\ exists z, p = z ++ s) \/
     exists a c z d, p = a ++ c :: s ++ r /\ p = z ++ d :: s /\ c <> d /\ (last p 0 = c \/ ~ In c r)).
Definition ascii7 (l : list Z) : Prop := Forall (fun c => 0 <= c < 128) l.

(** a message text in lines: each ends in a CR and contains no other CR; a control
    character ^A can only stand at its beginning, where it makes the line a kludge line *)
Definition isline (l : list Z) : Prop :=
  exists body, l = body ++ [13] /\ ~ In 13 body /\ ~ In 1 (tl body).
Definition iskludge (l : list Z) : Prop := hd 0 l = 1.
(** the text of a message, whose chunks hold whole lines *)
Definition wholelines (chunks : list (list Z)) (lss : list (list (list Z))) : Prop :=
  chunks = map (@concat Z) lss /\ Forall (Forall isline) lss.

(** ** Filters *)
(** the commands that are carried out: those of the rules that apply, in order, up to and
    including the first KILL *)
Fixpoint upto_kill (cs : list command) : list command :=
  match cs with
  | [] => []
  | CKill :: _ => [CKill]
  | c :: r => c :: upto_kill r
  end.
Definition firing (e : fenv) (mm : memmsg) (rules : list (list Z * list command)) : list command :=
  concat (map snd (filter (fun r => match evalfilter e mm (fst r) with Some 1 => true | _ => false end) rules)).
(** commands that do not change the message's text or addresses and do not run a program *)
Definition simple (c : command) : Prop :=
  match c with
  | CKill | CTwit | CCopy _ | CWriteLog _ | CWriteBad _ | CBounceMsg _ | CBounceHeader _ => True
  | _ => False
  end.
