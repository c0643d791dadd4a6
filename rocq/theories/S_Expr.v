(** What a filter expression means: statements joined by AND and OR, grouped from the
    right, with NOT in front of a single statement and parentheses for grouping. *)
From Verif Require Import Base.

(** the value of a statement or expression: true, false, or malformed *)
Definition tri := option bool.
Definition tri_not (v : tri) : tri := option_map negb v.
Definition tri2 (f : bool -> bool -> bool) (a b : tri) : tri :=
  match a, b with Some x, Some y => Some (f x y) | _, _ => None end.
(** the program's encoding of a value *)
Definition code (v : tri) : Z := match v with None => -1 | Some false => 0 | Some true => 1 end.

Definition blanks (s : list Z) : Prop := Forall (fun c => c = 32) s.
(** s is the word w in any mixture of upper and lower case *)
Definition anycase (w s : list Z) : Prop := map tolower s = map tolower w.

(** parentheses in s match, whatever stands between quotes *)
Inductive balanced : list Z -> Prop :=
| bal_nil : balanced []
| bal_char c s : c <> 40 -> c <> 41 -> balanced s -> balanced (c :: s)
| bal_par s t : balanced s -> balanced t -> balanced (40 :: s ++ 41 :: t).

(** a statement: a word without blanks, or one that ends in a string in double quotes *)
Inductive statement : list Z -> Prop :=
| st_word w : w <> [] -> Forall (fun c => c <> 32 /\ c <> 34) w -> ~ anycase (lit "NOT") w ->
              hd 0 w <> 40 -> balanced w -> statement w
| st_quoted p q : Forall (fun c => c <> 32 /\ c <> 34) p -> Forall (fun c => c <> 34) q ->
              hd 0 (p ++ [34]) <> 40 -> balanced (p ++ [34] ++ q ++ [34]) ->
              statement (p ++ [34] ++ q ++ [34]).

Section Env.
  (** the value of each statement *)
  Context (env : list Z -> tri).

  Inductive term : list Z -> tri -> Prop :=
  | tm_statement w : statement w -> term w (env w)
  | tm_not n w k : anycase (lit "NOT") n -> statement w ->
                   term (n ++ [32] ++ repeat 40 k ++ w ++ repeat 41 k) (tri_not (env w))
  | tm_paren s v : expression s v -> term ([40] ++ s ++ [41]) v
  with expression : list Z -> tri -> Prop :=
  | ex_term b1 b2 t v : blanks b1 -> blanks b2 -> term t v -> expression (b1 ++ t ++ b2) v
  | ex_and b1 b2 t op s v1 v2 : blanks b1 -> blanks b2 -> b2 <> [] -> anycase (lit "AND") op ->
                   term t v1 -> expression s v2 ->
                   expression (b1 ++ t ++ b2 ++ op ++ [32] ++ s) (tri2 andb v1 v2)
  | ex_or b1 b2 t op s v1 v2 : blanks b1 -> blanks b2 -> b2 <> [] -> anycase (lit "OR") op ->
                   term t v1 -> expression s v2 ->
                   expression (b1 ++ t ++ b2 ++ op ++ [32] ++ s) (tri2 orb v1 v2).
  Scheme term_ind2 := Induction for term Sort Prop
    with expression_ind2 := Induction for expression Sort Prop.
  Combined Scheme term_expression_ind from term_ind2, expression_ind2.
End Env.
