(** The log: specification. *)
From Verif Require Import Base M_Str M_Date S_Date M_Log.

Definition time_ok (tp : tm) : Prop :=
  0 <= tm_sec tp <= 60 /\ 0 <= tm_min tp < 60 /\ 0 <= tm_hour tp < 24 /\ 1 <= tm_mday tp <= 31 /\ 0 <= tm_mon tp < 12 /\ 0 <= tm_year tp.
(** a call as the program makes them: a category, a level from 1 on, the text has a blank where the
    format has one at its start *)
Definition call_ok (c : lcall) : Prop :=
  0 <= lc_cat c < 9 /\ 1 <= lc_level c /\ time_ok (lc_tm c) /\ lc_fmt c <> [] /\ (forall f, lc_render c (32 :: f) = 32 :: lc_render c f).
(** the letter of a category *)
Definition letter_of (cat : Z) : Z :=
  if cat =? 0 then 45 else if cat =? 1 then 37 else if cat =? 2 then 61 else if cat =? 3 then 33 else if cat =? 4 then 47 else
  if cat =? 5 then 68 else if cat =? 6 then 43 else if cat =? 7 then 94 else 63.
Definition is_error (cat : Z) : Prop := cat = 1 \/ cat = 3 \/ cat = 8.
Definition pri_of (cat p : Z) : Prop := (is_error cat /\ p = 3) \/ (cat = 5 /\ p = 7) \/ (~ is_error cat /\ cat <> 5 /\ p = 6).
(** the text of a call, behind some blanks *)
Definition text_of (c : lcall) (t : list Z) : Prop := exists k, t = repeat 32 k ++ lc_render c (lc_fmt c).
(** the line of a call, without its end: "! 01-Jan-91 11:22:33 text" *)
Definition line_of (c : lcall) (l : list Z) : Prop :=
  exists t, text_of c t /\ let tp := lc_tm c in
    l = [letter_of (lc_cat c); 32] ++ two (tm_mday tp) ++ [45] ++ month3 (tm_mon tp) ++ [45] ++ two (tm_year tp mod 100) ++ [32] ++
        two (tm_hour tp) ++ [58] ++ two (tm_min tp) ++ [58] ++ two (tm_sec tp) ++ [32] ++ t.
Definition lines (ls : list (list Z)) : list Z := concat (map (fun l => l ++ [10]) ls).
