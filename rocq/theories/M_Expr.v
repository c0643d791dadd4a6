(** Model of src/shared/expr.c. Memory allocation is taken to succeed; the position and
    the text of error messages are not modelled. struct expr is represented by the part of
    its buffer that is still to be parsed. *)
From Verif Require Import Base M_Node4D M_Pat M_Mem.

(** expr.c:39-48: the scan for the matching parenthesis: the text in front of it and what
    follows it, or [None] if the string ends first; nump is k+1. *)
Fixpoint parenscan (k : nat) (s : list Z) : option (list Z * list Z) :=
  match s with
  | [] => None
  | c :: r =>
    if c =? 40 then option_map (fun p => (c :: fst p, snd p)) (parenscan (S k) r)
    else if c =? 41 then
      match k with
      | O => Some ([], r)
      | S k' => option_map (fun p => (c :: fst p, snd p)) (parenscan k' r)
      end
    else option_map (fun p => (c :: fst p, snd p)) (parenscan k r)
  end.

(** expr.c:91-118: a word; blanks inside double quotes belong to it, the second double
    quote ends it. *)
Fixpoint exword (hasquote : bool) (s : list Z) : list Z * list Z :=
  match s with
  | [] => ([], [])
  | c :: r =>
    if (c =? 32) && negb hasquote then ([], s)
    else if (c =? 34) && hasquote then ([c], r)
    else let '(w, rest) := exword (hasquote || (c =? 34)) r in (c :: w, rest)
  end.

(** expr.c:10-147 expr_get: the text of the next term and the rest of the buffer; [None]:
    no matching parenthesis. (The new buffer has len+10 characters and gets at most
    len+5.) *)
Definition expr_get (s : list Z) : option (list Z * list Z) :=
  let s := skipspaces s in
  let hasnot := strneqi 4 s (lit "NOT ") in
  let s := if hasnot then skipn 4 s else s in
  let pre := if hasnot then lit "NOT " else [] in
  let word := let '(w, rest) := exword false s in Some (pre ++ w, rest) in
  match s with
  | c :: r => if c =? 40 then match parenscan 0 r with
                              | Some (i, rest) => Some (pre ++ i, rest)
                              | None => None
                              end
              else word
  | [] => word
  end.

(** expr.c:149-193 expr_getrest *)
Definition expr_getrest (s : list Z) : list Z := skipspaces s.

(** expr.c:221-422 expr_eval: 1, 0 or -1 (error). [ev] is the callback that evaluates a
    single statement; [None] means that it is undefined for this statement, or lack of
    fuel. Line 261 copies a string onto itself with
    strcpy, which is undefined; it is modelled as the left shift that is meant. *)
Fixpoint expr_eval (fuel : nat) (ev : list Z -> option Z) (s : list Z) : option Z :=
  match fuel with
  | O => None
  | S f =>
    match expr_get s with
    | None => Some (-1)
    | Some (e1, s1) =>
      match expr_get s1 with
      | None => Some (-1)
      | Some (e2, s2) =>
        let e3 := expr_getrest s2 in
        match e2 with
        | [] =>
          if streq e1 s then
            if strneqi 4 e1 (lit "NOT ") then
              do r <- expr_eval f ev (skipn 4 e1);
              Some (if r =? 1 then 0 else if r =? 0 then 1 else r)
            else ev e1
          else expr_eval f ev e1
        | _ =>
          if streqi e2 (lit "AND") then
            match e3 with
            | [] => Some (-1)
            | _ =>
              do r1 <- expr_eval f ev e1;
              if r1 =? -1 then Some (-1) else
              do r2 <- expr_eval f ev e3;
              if r2 =? -1 then Some (-1) else
              Some (if negb (r1 =? 0) && negb (r2 =? 0) then 1 else 0)
            end
          else if streqi e2 (lit "OR") then
            match e3 with
            | [] => Some (-1)
            | _ =>
              do r1 <- expr_eval f ev e1;
              if r1 =? -1 then Some (-1) else
              do r2 <- expr_eval f ev e3;
              if r2 =? -1 then Some (-1) else
              Some (if negb (r1 =? 0) || negb (r2 =? 0) then 1 else 0)
            end
          else Some (-1)
        end
      end
    end
  end.
(** expr_makeexpr (expr.c:195-213) followed by expr_eval. The recursion is at most twice
    as deep as the text is long (T_Expr.C32_terminates). *)
Definition evaluate (ev : list Z -> option Z) (s : list Z) : option Z := expr_eval (2 * length s + 2) ev s.
