(** Files attached to netmail: specification. *)
From Verif Require Import Base M_Str M_Fs M_Attach.

(** ** The files a subject names: words between blanks and commas, with "\" for "/" *)
Definition sepch (c : Z) : Prop := c = 32 \/ c = 9 \/ c = 44.
Definition wordch (c : Z) : Prop := 0 < c < 256 /\ ~ sepch c /\ c <> 34 /\ c <> 10.
Definition slash (c : Z) : Z := if c =? 92 then 47 else c.
Inductive attached : list Z -> list (list Z) -> Prop :=
| at_none s : Forall sepch s -> attached s []
| at_word s w rest ws : Forall sepch s -> w <> [] -> Forall wordch w -> (length w <= 79)%nat -> (rest = [] \/ exists c r, rest = c :: r /\ sepch c) ->
    attached rest ws -> attached (s ++ w ++ rest) (map slash w :: ws).

(** ** A directory, and a file in it *)
Definition dirname (d : list Z) : Prop := Forall (fun c => 0 < c < 256) d /\ (0 < length d <= 99)%nat.
Definition withslash (d s : list Z) : Prop := s = d ++ [47] /\ last d 0 <> 47 \/ s = d /\ last d 0 = 47.
(** the name behind the last slash *)
Definition lastpart (name p : list Z) : Prop := ~ In 47 p /\ (p = name \/ exists d, name = d ++ 47 :: p).

(** ** What the operating system must do: nothing is lost in reading and closing; files can be
       opened *)
Definition faithful (e : cenv) : Prop := ce_read e = None /\ ce_close e = None.
Definition opens (e : cenv) : Prop := ce_in e = true /\ ce_out e = true.

(** a file of the inbound directory [i] has become a file of the packet directory [p], or is listed
    where it is *)
Definition handed (fs fs' : list (list Z * list Z)) (i p : list Z) (name : list Z) (fl : list Z * bool) : Prop :=
  exists part, lastpart name part /\ snd fl = true /\
    match fget fs (i ++ part) with
    | Some c => (fst fl = p ++ part /\ fget fs' (p ++ part) = Some c /\ fget fs' (i ++ part) = None) \/ (fst fl = i ++ part /\ fget fs' (i ++ part) = Some c)
    | None => fst fl = i ++ part
    end.
(** a file of this system has been copied to the packet directory, or is listed by its name if it
    does not exist *)
Definition copied (fs fs' : list (list Z * list Z)) (p : list Z) (name : list Z) (fl : list Z * bool) : Prop :=
  exists part, lastpart name part /\
    match fget fs name with
    | Some c => fl = (p ++ part, true) /\ fget fs' (p ++ part) = Some c
    | None => fl = (name, false)
    end.
