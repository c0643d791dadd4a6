(** CrashMaint: specification. The areas are those that CrashMail reads from the same
    configuration file. *)
From Verif Require Import Base M_Node4D M_Str S_Str M_Cfg M_Upd S_Upd.

(** an area that holds messages: it has a message base, and is not a template for new areas *)
Definition template (tag : list Z) : bool := streqi tag (lit "DEFAULT") || strneqi 8 tag (lit "DEFAULT_").
Definition holds (a : farea) : Prop := fa_mb a <> None /\ template (fa_tag a) = false.
(** the areas asked for *)
Definition asked (pat : option (list Z)) (a : farea) : Prop := holds a /\ match pat with None => True | Some p => fmatch p (fa_tag a) end.
(** message bases: 0 is MSG, 1 is JAM *)
Definition injam (a : farea) : bool := match fa_mb a with Some 1%nat => true | _ => false end.
(** those elements of a list that have a property, in order *)
Inductive those {A} (P : A -> Prop) : list A -> list A -> Prop :=
| those_nil : those P [] []
| those_in x l m : P x -> those P l m -> those P (x :: l) (x :: m)
| those_out x l m : ~ P x -> those P l m -> those P (x :: l) m.

(** every area in turn, until one fails or the user breaks in: the exit code and the state *)
Section Done.
  Context {W : Type} (stop : W -> bool) (work : farea -> W -> bool * W).
  Inductive eachdone : list farea -> W -> Z -> W -> Prop :=
  | ed_all w : eachdone [] w 0 w
  | ed_break l w : stop w = true -> eachdone l w 0 w
  | ed_next a l w w' e w'' : stop w = false -> work a w = (true, w') -> eachdone l w' e w'' -> eachdone (a :: l) w e w''
  | ed_failed a l w w' : stop w = false -> work a w = (false, w') -> eachdone (a :: l) w 10 w'.
End Done.

Definition keepline (l : list Z) : Prop := streqi (keyword l) (lit "KEEPNUM") = true \/ streqi (keyword l) (lit "KEEPDAYS") = true.
(** KEEPNUM and KEEPDAYS are given only for areas that hold messages *)
Definition placed (okother : list (list Z) -> list node4d -> list (list Z) -> list node4d -> list Z -> bool) (s : list Z) : Prop :=
  forall before l after c, flines s = before ++ l :: after -> keepline l -> rdlines okother before (FC [] [] [] [] []) = ROk c ->
    exists areas a, cf_areas c = areas ++ [a] /\ holds a.
(** their numbers are written with at most 29 characters *)
Definition shortnumbers (s : list Z) : Prop := forall l, In l (flines s) -> keepline l -> (length (argument l) <= 29)%nat.
