(** When a configuration is sound. *)
From Verif Require Import Base M_Node4D M_Pat S_Pat M_Mem M_Cfg M_Expr M_Filter M_CfgChk.

(** HUB and REGION patterns can only be matched and filled in with a nodelist *)
Definition asks_nodelist (p : npat) : Prop := ptype p = PAT_HUB \/ ptype p = PAT_REGION.
(** the patterns of FILEATTACH, BOUNCE, CHANGE and ROUTE, and the destinations of ROUTE and
    REMAPMSG *)
Definition patterns (c : ckcfg) : list npat := ck_attach c ++ ck_bounce c ++ map rt_pat (ck_routes c) ++ ck_changes c.
Definition destination (c : ckcfg) (p : npat) : Prop :=
  (exists r, In r (ck_routes c) /\ p = rt_dest r) \/ (exists cond cs name, In (cond, cs) (ck_filters c) /\ In (CRemap name p) cs).
Definition same_name (a b : list Z) : Prop := map tolower a = map tolower b.
(** the first area with a tag *)
Inductive first_area (tag : list Z) : list karea -> karea -> Prop :=
| fa_here a r : same_name (ka_tag a) tag -> first_area tag (a :: r) a
| fa_later a r b : ~ same_name (ka_tag a) tag -> first_area tag r b -> first_area tag (a :: r) b.
(** [b] is listed behind [a] *)
Definition behind (l : list karea) (a b : karea) : Prop := exists l1 l2 l3, l = l1 ++ a :: l2 ++ b :: l3.
(** messages are kept in a path, for an area that is not the template for new ones *)
Definition own_path (a : karea) : Prop := ka_base a = true /\ ka_type a <> AREATYPE_DEFAULT.
Definition malformed (e : fenv) (cond : list Z) : Prop := evalfilter e emptymsg cond = Some (-1).

Record sound (c : ckcfg) : Prop := {
  so_aka : fe_akas (ck_env c) <> [];
  so_nodelist : nl_has (fe_nl (ck_env c)) = false -> (forall p, In p (patterns c) -> ~ asks_nodelist p) /\ (forall p, destination c p -> ~ asks_nodelist p);
  so_paths : forall a b, behind (ck_areas c) a b -> own_path a -> ka_base b = true -> ~ same_name (ka_path a) (ka_path b);
  so_filters : forall cond cs, In (cond, cs) (ck_filters c) -> (length cond <= 200)%nat -> ~ malformed (ck_env c) cond;
  so_copy : forall cond cs tag, In (cond, cs) (ck_filters c) -> In (CCopy tag) cs -> exists a, first_area tag (ck_areas c) a /\ ka_type a = AREATYPE_LOCAL }.

(** what the parser leaves: patterns with short components, conditions whose evaluation is
    defined *)
Definition shortpat (p : npat) : Prop := (length (pzone p) <= 9)%nat /\ (length (pnet p) <= 9)%nat /\ (length (pnode p) <= 9)%nat /\ (length (ppoint p) <= 9)%nat.
Record parsed (c : ckcfg) : Prop := {
  pa_pats : forall p, In p (patterns c) \/ destination c p -> shortpat p;
  pa_filters : forall cond cs, In (cond, cs) (ck_filters c) -> evalfilter (ck_env c) emptymsg cond <> None }.

(** ** What may be reported *)
Inductive fault (c : ckcfg) : cfgerr -> Prop :=
| f_aka : fe_akas (ck_env c) = [] -> fault c (CeText (lit "No AKAs configured"))
| f_pattern p : nl_has (fe_nl (ck_env c)) = false -> In p (patterns c) -> asks_nodelist p -> fault c (CeText (lit "Nodelist needed for pattern """ ++ Print4DPat p ++ lit """"))
| f_route r : nl_has (fe_nl (ck_env c)) = false -> In r (ck_routes c) -> asks_nodelist (rt_dest r) -> fault c (CeText (lit "Nodelist needed for pattern """ ++ Print4DDestPat (rt_dest r) ++ lit """"))
| f_remap cond cs name p : nl_has (fe_nl (ck_env c)) = false -> In (cond, cs) (ck_filters c) -> In (CRemap name p) cs -> asks_nodelist p ->
    fault c (CeText (lit "Filter: Nodelist needed for pattern """ ++ Print4DDestPat p ++ lit """"))
| f_path a b : behind (ck_areas c) a b -> own_path a -> ka_base b = true -> same_name (ka_path a) (ka_path b) ->
    fault c (CeText (lit "The areas " ++ ka_tag a ++ lit " and " ++ ka_tag b ++ lit " both have the same path"))
| f_filter cond cs : In (cond, cs) (ck_filters c) -> (length cond <= 200)%nat -> malformed (ck_env c) cond -> fault c (CeFilter cond)
| f_missing cond cs tag : In (cond, cs) (ck_filters c) -> In (CCopy tag) cs -> (forall a, In a (ck_areas c) -> ~ same_name (ka_tag a) tag) ->
    fault c (CeText (lit "Filter: Area " ++ tag ++ lit " for COPY command not found"))
| f_kind cond cs tag a : In (cond, cs) (ck_filters c) -> In (CCopy tag) cs -> first_area tag (ck_areas c) a -> ka_type a <> AREATYPE_LOCAL ->
    fault c (CeText (lit "Filter: Area " ++ tag ++ lit " for COPY command is not a local area")).
