(** Areas that are added automatically: specification. *)
From Verif Require Import Base M_Node4D M_Cfg M_Upd M_Filter M_Net M_Settings S_Echo.

Definition firstthat {A} (P : A -> Prop) (l : list A) (x : A) : Prop := exists a b, l = a ++ x :: b /\ P x /\ Forall (fun y => ~ P y) a.
Definition firstpos {A} (P : A -> Prop) (l : list A) (i : nat) : Prop :=
  (exists x, nth_error l i = Some x /\ P x) /\ forall j y, (j < i)%nat -> nth_error l j = Some y -> ~ P y.

(** ** The template: DEFAULT_xyz if the group is among the letters behind the underscore,
       otherwise DEFAULT *)
Definition forgroup (g : Z) (a : farea) : Prop := strneqi 8 (fa_tag a) (lit "DEFAULT_") = true /\ In g (firstn 49 (skipn 8 (fa_tag a))).
Definition general (a : farea) : Prop := streqi (fa_tag a) (lit "DEFAULT") = true.
Definition istemplate (areas : list farea) (g : Z) (o : option farea) : Prop :=
  (g <> 0 /\ exists d, o = Some d /\ firstthat (forgroup g) areas d) \/
  ((g = 0 \/ Forall (fun a => ~ forgroup g a) areas) /\
   ((exists d, o = Some d /\ firstthat general areas d) \/ (o = None /\ Forall (fun a => ~ general a) areas))).

Definition isdefault (tag : list Z) : Prop := strneqi 8 tag (lit "DEFAULT_") = true \/ streqi tag (lit "DEFAULT") = true.

(** ** The node that asks for the area, and its default group *)
Definition issender (nodes : list fnode) (addr : node4d) (o : option nat) : Prop :=
  match o with
  | Some i => firstpos (fun n => sameaddr (fn_node n) addr) nodes i
  | None => Forall (fun n => ~ sameaddr (fn_node n) addr) nodes
  end.
Definition groupof (nodes : list fnode) (o : option nat) (g : Z) : Prop :=
  match o with Some i => exists n, nth_error nodes i = Some n /\ g = fn_defgroup n | None => g = 0 end.

(** ** The path: %a, %l and %8 in the path of the template stand for the name, the name in lower
       case and a number of eight digits. Characters that are dangerous in names of files are
       replaced *)
Definition harmless (c : Z) : Prop := 33 <= c <= 126 /\ ~ In c [34; 35; 39; 96; 40; 41; 42; 44; 46; 47; 58; 59; 60; 62; 124].
Definition filename (name f : list Z) : Prop := Forall2 (fun c d => (harmless c /\ d = c) \/ (~ harmless c /\ d = 95)) name f.
Definition special (c x : Z) : Prop := c = 37 /\ (x = 65 \/ x = 97 \/ x = 76 \/ x = 108 \/ x = 56 \/ x = 24).
Inductive expands (f serial : list Z) : list Z -> list Z -> Prop :=
| ex_nil : expands f serial [] []
| ex_name x p t : x = 65 \/ x = 97 -> expands f serial p t -> expands f serial (37 :: x :: p) (f ++ t)
| ex_lower x p t : x = 76 \/ x = 108 -> expands f serial p t -> expands f serial (37 :: x :: p) (map tolower f ++ t)
| ex_serial x p t : x = 56 \/ x = 24 -> expands f serial p t -> expands f serial (37 :: x :: p) (serial ++ t)
| ex_last c : expands f serial [c] [c]
| ex_char c x p t : ~ special c x -> expands f serial (x :: p) t -> expands f serial (c :: x :: p) (c :: t).
(** there is a %8 in it *)
Inductive numbered : list Z -> Prop :=
| nu_here x p : x = 56 \/ x = 24 -> numbered (37 :: x :: p)
| nu_skip c x p : special c x -> numbered p -> numbered (c :: x :: p)
| nu_next c x p : ~ special c x -> numbered (x :: p) -> numbered (c :: x :: p).

(** ** The links: those of the template, the node the area comes from, and the nodes that get all
       areas of the group *)
Definition linkof (l : list (nat * Z)) (i : nat) (f : Z) : Prop := exists a b, l = a ++ (i, f) :: b /\ ~ In i (map fst a).
Definition autolink (nodes : list fnode) (g : Z) (readonly : bool) (i : nat) (f : Z) : Prop :=
  exists n, nth_error nodes i = Some n /\ In g (fn_addgroups n) /\ f = (if readonly || mem g (fn_rogroups n) then 1 else 0).
Definition rightlinks (tmpl : list (nat * Z)) (sender : option nat) (nodes : list fnode) (g : Z) (readonly : bool) (l : list (nat * Z)) : Prop :=
  NoDup (map fst l) /\
  forall i f, In (i, f) l <->
    linkof tmpl i f \/
    (~ In i (map fst tmpl) /\ sender = Some i /\ f = 4) \/
    (~ In i (map fst tmpl) /\ (exists j, sender = Some j /\ j <> i) /\ autolink nodes g readonly i f).

(** ** The description: from the first area list with descriptions of the node that has one *)

(** a line that names the area: its first word, blanks, a text of which 77 characters are kept *)
Definition blank (c : Z) : Prop := 0 < c <= 32.
Definition visible (c : Z) : Prop := 33 <= c <= 127.
Definition describes (area line d : list Z) : Prop :=
  exists w s1 s x t, line = w ++ s1 :: s ++ x :: t /\ Forall visible w /\ blank s1 /\ Forall blank s /\ visible x /\ streqi w area = true /\ d = firstn 77 (x :: t).
Definition textfile (ls : list (list Z)) : list Z := flat_map (fun l => l ++ [10]) ls.
Definition plainline (l : list Z) : Prop := Forall (fun c => 1 <= c <= 127 /\ c <> 10 /\ c <> 13) l /\ (length l <= 197)%nat.
Definition filesays (area : list Z) (ls : list (list Z)) (d : list Z) : Prop :=
  exists l, firstthat (fun l => exists d, describes area l d) ls l /\ describes area l d.
Definition listsays (files : list Z -> option (list Z)) (area : list Z) (node : option nat) (al : sarealist) (d : list Z) : Prop :=
  node = Some (sal_node al) /\ Z.testbit (sal_flags al) 0 = true /\ exists ls, files (sal_file al) = Some (textfile ls) /\ Forall plainline ls /\ filesays area ls d.
