(** Model of CheckConfig (src/crashmail/config.c) and CheckFilter (src/crashmail/filter.c). *)
From Verif Require Import Base M_Node4D M_Pat M_Mem M_Cfg M_Expr M_Filter.

(** config.h struct Area, as far as CheckConfig looks at it; [ka_base]: Messagebase is not
    NULL *)
Record karea := KA { ka_tag : list Z; ka_type : Z; ka_base : bool; ka_path : list Z }.
(** config.h struct Config, as far as CheckConfig looks at it. [ck_env]: what filters are
    evaluated with; cfg_NodelistType is set if [nl_has (fe_nl ck_env)], AkaList is
    [fe_akas ck_env]. The lists are those of FILEATTACH, BOUNCE, ROUTE and CHANGE. *)
Record ckcfg := CK {
  ck_temp : list Z; ck_inbound : list Z; ck_outbound : list Z; ck_create : list Z; ck_packets : list Z;
  ck_env : fenv; ck_attach : list npat; ck_bounce : list npat; ck_routes : list route; ck_changes : list npat;
  ck_areas : list karea; ck_filters : list (list Z * list command) }.
Definition ck_nodelist (c : ckcfg) : bool := nl_has (fe_nl (ck_env c)).

(** What is wrong: the text left in cfgerr; for a filter the position and the message of
    expr_eval, which are not modelled, are left out. *)
Inductive cfgerr := CeText (t : list Z) | CeFilter (cond : list Z).
(** The outcome of a check; [None]: undefined behaviour *)
Definition check := option (option cfgerr).
Definition andthen (a b : check) : check := match a with Some None => b | _ => a end.
Fixpoint checkall {A} (f : A -> check) (l : list A) : check :=
  match l with [] => Some None | x :: r => andthen (f x) (checkall f r) end.

(** the pattern is printed into buf[50] *)
Definition needs (what : list Z) (p : npat) (print : npat -> list Z) : check :=
  if Check4DPatNodelist p then Some None
  else if (length (print p) <? 50)%nat then Some (Some (CeText (what ++ lit "odelist needed for pattern """ ++ print p ++ lit """"))) else None.

(** memmessage.c:175-193 mmAlloc: everything is 0 *)
Definition emptymsg : memmsg := mm0.
(** filter.c:1075-1124 CheckFilter. For a long text, cfgerr is set, but the result is TRUE. *)
Definition CheckFilter (e : fenv) (cond : list Z) : check :=
  do r <- evalfilter e emptymsg cond;
  if r =? -1 then if (200 <? length cond)%nat then Some None else Some (Some (CeFilter cond)) else Some None.

(** config.c:1899-1912: areas with the same path *)
Fixpoint samepath (areas : list karea) : check :=
  match areas with
  | [] => Some None
  | a :: r =>
    andthen (if negb (ka_type a =? AREATYPE_DEFAULT) && ka_base a then
               match find (fun b => ka_base b && streqi (ka_path a) (ka_path b)) r with
               | Some b => Some (Some (CeText (lit "The areas " ++ ka_tag a ++ lit " and " ++ ka_tag b ++ lit " both have the same path")))
               | None => Some None
               end
             else Some None)
            (samepath r)
  end.
(** config.c:1919-1948: a command of a filter *)
Definition checkcommand (c : ckcfg) (cmd : command) : check :=
  match cmd with
  | CCopy tag =>
    match find (fun a => streqi (ka_tag a) tag) (ck_areas c) with
    | None => Some (Some (CeText (lit "Filter: Area " ++ tag ++ lit " for COPY command not found")))
    | Some a => if negb (ka_type a =? AREATYPE_LOCAL) then Some (Some (CeText (lit "Filter: Area " ++ tag ++ lit " for COPY command is not a local area"))) else Some None
    end
  | CRemap _ dp => if ck_nodelist c then Some None else needs (lit "Filter: N") dp Print4DDestPat
  | _ => Some None
  end.
(** config.c:1843-1845 *)
Definition directories (c : ckcfg) : list Z * list Z * list Z :=
  let def d o := match d with [] => o | _ => d end in
  (def (ck_temp c) (ck_inbound c), def (ck_create c) (ck_outbound c), def (ck_packets c) (ck_outbound c)).
(** config.c:1833-1952 CheckConfig: the first error that is found *)
Definition CheckConfig (c : ckcfg) : check :=
  match fe_akas (ck_env c) with
  | [] => Some (Some (CeText (lit "No AKAs configured")))
  | _ =>
    andthen (if ck_nodelist c then Some None else
      andthen (checkall (fun p => needs (lit "N") p Print4DPat) (ck_attach c))
      (andthen (checkall (fun p => needs (lit "N") p Print4DPat) (ck_bounce c))
      (andthen (checkall (fun r => andthen (needs (lit "N") (rt_pat r) Print4DPat) (needs (lit "N") (rt_dest r) Print4DDestPat)) (ck_routes c))
      (checkall (fun p => needs (lit "N") p Print4DPat) (ck_changes c)))))
    (andthen (samepath (ck_areas c))
      (checkall (fun f => andthen (CheckFilter (ck_env c) (fst f)) (checkall (checkcommand c) (snd f))) (ck_filters c)))
  end.
