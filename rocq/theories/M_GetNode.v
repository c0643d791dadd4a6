(** Model of src/tools/crashgetnode.c, on top of the model of src/cmnllib/cmnllib.c in M_Nl.
    [None]: undefined behaviour (the line was never stored). printargs and the messages of
    parseargs are not modelled. *)
From Verif Require Import Base M_Node4D M_Str M_Mem M_Fs M_Out M_Nl M_Args M_Main.

(** The system: index and files of a nodelist directory (see M_Nl), the environment variable
    CMNODELISTDIR *)
Record gnenv := GN { gn_index : list Z -> option (list Z); gn_files : list Z -> fsys; gn_env : option (list Z) }.

(** strtok of the C library with a set of delimiters: the token and what is left *)
Fixpoint skipdelim (d l : list Z) : list Z := match l with c :: r => if existsb (Z.eqb c) d then skipdelim d r else l | [] => [] end.
Fixpoint uptodelim (d l : list Z) : list Z * list Z :=
  match l with
  | [] => ([], [])
  | c :: r => if existsb (Z.eqb c) d then ([], r) else let '(a, b) := uptodelim d r in (c :: a, b)
  end.
Definition strtok (d l : list Z) : option (list Z) * list Z :=
  match skipdelim d l with
  | [] => (None, [])
  | t => let '(a, b) := uptodelim d t in (Some a, b)
  end.
(** crashgetnode.c:29-33 strip; chars are signed. (For an empty line the byte in front of
    the array is read.) *)
Fixpoint droplow (l : list Z) : list Z := match l with c :: r => if (c <? 33) || (c >? 127) then droplow r else l | [] => [] end.
Definition gn_strip (l : list Z) : list Z := rev (droplow (rev l)).

(** crashgetnode.c:121-149 *)
Definition gn_field (name d : list Z) (v : list Z * list Z) : list Z * list Z :=
  match strtok d (snd v) with
  | (Some t, r) => (fst v ++ name ++ lit ": " ++ t ++ [10], r)
  | (None, r) => (fst v, r)
  end.
Definition COMMA : list Z := lit ",".
Definition gn_fields (rest : list Z) : list Z :=
  let v := gn_field (lit "Name") COMMA ([], rest) in
  let v := gn_field (lit "Location") COMMA v in
  let v := gn_field (lit "Sysop") COMMA v in
  let v := gn_field (lit "Phone") COMMA v in
  let v := gn_field (lit "Baud") COMMA v in
  fst (gn_field (lit "Flags") [] v).
(** crashgetnode.c:102-119; what the node is listed as and what is left behind its number *)
Definition gn_kind (line : list Z) : list Z * list Z :=
  if hd 0 line =? 44 then (lit "Node", snd (strtok COMMA line))
  else match strtok COMMA line with
       | (Some b, r) => (b, snd (strtok COMMA r))
       | (None, r) => ([], snd (strtok COMMA r))
       end.
(** crashgetnode.c:97-149 *)
Definition gn_text (a : node4d) (region hub : Z) (line : list Z) : list Z :=
  let '(k, rest) := gn_kind (gn_strip line) in
  lit "Node " ++ dec (zone a) ++ lit ":" ++ dec (net a) ++ lit "/" ++ dec (node a) ++ lit "." ++ dec (point a) ++ [10] ++
  lit "Region " ++ dec region ++ lit ", Hub " ++ dec hub ++ [10] ++
  lit "Node is listed as a " ++ k ++ [10] ++ gn_fields rest.

(** cmnllib.h:8; cmnllib.c:20-28 *)
Definition CMNLERR_NO_INDEX := 1.
Definition cmnlerrstr (e : Z) : list Z :=
  nth (Z.to_nat e) [[]; lit "Failed to open nodelist index"; lit "Unknown format of nodelist index"; lit "Unexpected end of file";
                    lit "Node not found"; lit "Failed to open nodelist"] [].
(** crashgetnode.c:36-155 main: what is printed and the exit status *)
Inductive gnout := GnHelp | GnBadArgs | GnText (text : list Z) (status : Z).
Definition GN_NODE := 0%nat. Definition GN_DIRECTORY := 1%nat.
(** crashgetnode.c:76-95: the directory is known *)
Definition gn_lookup (E : gnenv) (dir w : list Z) : option gnout :=
  let fail t := Some (GnText (t ++ [10]) EXIT_ERROR) in
  match Parse4D w with
  | None => fail (lit "Invalid node " ++ w)
  | Some a =>
    match gn_index E dir with
    | None => fail (cmnlerrstr CMNLERR_NO_INDEX)
    | Some ix =>
      do path <- path200 dir (lit "cmnodelist.index");
      if negb (cmnlOpenNL path ix) then fail (cmnlerrstr CMNLERR_WRONG_TYPE) else
      match cmnlFindNL ix (gn_files E dir) a (Some 200%nat) with
      | NlErr e => fail (cmnlerrstr e)
      | NlFound region hub None => None
      | NlFound region hub (Some line) => Some (GnText (gn_text a region hub line) EXIT_OK)
      end
    end
  end.
Definition crashgetnode (E : gnenv) (argv : list (list Z)) : option gnout :=
  if match argv with w :: _ => helpword w | [] => false end then Some GnHelp else
  match parseargs args_crashgetnode argv with
  | None => Some GnBadArgs
  | Some ds =>
    match (if given ds GN_DIRECTORY then Some (word ds GN_DIRECTORY) else gn_env E) with
    | None => Some (GnText (lit "No directory specified and CMNODELISTDIR not set" ++ [10]) EXIT_ERROR)
    | Some dir => gn_lookup E dir (word ds GN_NODE)
    end
  end.
