(** Specification of the detection of looping netmail. *)
From Verif Require Import Base M_Node4D S_Node4D M_Mem M_Cfg M_Pat.

(** The Via line this program adds for the address [n]; [d]: date and time, [v]: version. *)
Definition own_via (n : node4d) (d v : list Z) : list Z :=
  1 :: lit "Via " ++ Print4D n ++ lit " @" ++ d ++ lit " CrashMail" ++ v.
(** [l] is a line of [text]: it stands at the beginning or behind a CR, and goes up to the
    next CR or to the end *)
Definition line_of (l text : list Z) : Prop :=
  exists a b, text = a ++ l ++ b /\ (a = [] \/ exists a', a = a' ++ [13]) /\
    ((exists l', l = l' ++ [13] /\ ~ In 13 l') \/ (l <> [] /\ ~ In 13 l /\ b = [])).
(** characters of addresses *)
Definition isaddr (c : Z) : Prop := c = 58 \/ c = 47 \/ c = 46 \/ 48 <= c <= 57.
(** [s] is a word of address characters in [l], or the first 19 characters of one *)
Definition address_word (s l : list Z) : Prop :=
  exists a w b, l = a ++ w ++ b /\ w <> [] /\ Forall isaddr w /\ (a = [] \/ exists a' c, a = a' ++ [c] /\ ~ isaddr c) /\
    (b = [] \/ exists c b', b = c :: b' /\ ~ isaddr c) /\ s = firstn 19 w.
(** a Via line by this program (in its first 150 characters) that names one of the addresses
    [akas] *)
Definition names_own (akas : list aka) (l : list Z) : Prop :=
  (exists r, l = 1 :: lit "Via" ++ r) /\ (exists a b, firstn 150 l = a ++ lit "CrashMail" ++ b) /\
  exists s n k, address_word s (firstn 150 l) /\ In 58 s /\ In 47 s /\ Parse4D s = Some n /\ zone n <> 0 /\ net n <> 0 /\ In k akas /\ ak_node k = n.
