(** Model of src/crashmail/node4dpat.c (node patterns). *)
From Verif Require Import Base M_Node4D.

(** node4dpat.h:4-9 PAT_* and node4dpat.h:11-18 struct Node4DPat *)
Inductive pattype := PAT_PATTERN | PAT_ZONE | PAT_REGION | PAT_NET | PAT_HUB | PAT_NODE.
Record npat := NP { ptype : pattype; pzone : list Z; pnet : list Z; pnode : list Z; ppoint : list Z }.

(** Outcome of a parser: TRUE with a result, FALSE, or undefined behaviour (use of the
    uninitialised local array temp, node4dpat.c:6). *)
Inductive pres (A : Type) := POk (a : A) | PFail | PUB.
Arguments POk {A} _. Arguments PFail {A}. Arguments PUB {A}.

(** Locals of rawParse4DPat (node4dpat.c:5-12). [r_temp = None]: temp not yet written. *)
Record rstate := RS { r_pat : npat; r_gz : bool; r_gn : bool; r_gf : bool;
                      r_temp : option (list Z); r_tempc : nat }.

Definition npset_zone p v := NP (ptype p) v (pnet p) (pnode p) (ppoint p).
Definition npset_net p v := NP (ptype p) (pzone p) v (pnode p) (ppoint p).
Definition npset_node p v := NP (ptype p) (pzone p) (pnet p) v (ppoint p).
Definition npset_point p v := NP (ptype p) (pzone p) (pnet p) (pnode p) v.

(** the characters of a pattern component, node4dpat.c:41 *)
Definition patchar (c : Z) : bool := isdigit c || (c =? 42) || (c =? 63).

(** temp[tempc++]=c; temp[tempc]=0;  (node4dpat.c:45-46): temp keeps what was in front
    of tempc and is cut behind the new character. *)
Definition puttemp (t : option (list Z)) (tc : nat) (c : Z) : option (list Z) :=
  Some (firstn tc (match t with Some l => l | None => [] end) ++ [c]).

(** node4dpat.c:19-49, one loop iteration *)
Definition rstep (s : rstate) (c : Z) : pres rstate :=
  if c =? 58 then
    if r_gz s || r_gn s || r_gf s then PFail else
    match r_temp s with
    | None => PUB
    | Some t => POk (RS (npset_zone (r_pat s) t) true (r_gn s) (r_gf s) (r_temp s) 0)
    end
  else if c =? 47 then
    if r_gn s || r_gf s then PFail else
    match r_temp s with
    | None => PUB
    | Some t => POk (RS (npset_net (r_pat s) t) (r_gz s) true (r_gf s) (r_temp s) 0)
    end
  else if c =? 46 then
    if r_gf s then PFail else
    match r_temp s with
    | None => PUB
    | Some t => POk (RS (npset_point (npset_node (r_pat s) t) []) (r_gz s) (r_gn s) true (r_temp s) 0)
    end
  else if patchar c then
    if Nat.ltb (r_tempc s) 9
    then POk (RS (r_pat s) (r_gz s) (r_gn s) (r_gf s) (puttemp (r_temp s) (r_tempc s) c) (S (r_tempc s)))
    else POk s
  else PFail.

Fixpoint rloop (s : rstate) (buf : list Z) : pres rstate :=
  match buf with
  | [] => POk s
  | c :: r => match rstep s c with POk s' => rloop s' r | PFail => PFail | PUB => PUB end
  end.

(** node4dpat.c:3-67 rawParse4DPat; [ty] is the Type set by the caller. *)
Definition rawParse4DPat (ty : pattype) (buf : list Z) : pres npat :=
  let star := lit "*" in
  let p0 := NP ty star star star star in
  if streq buf star then POk p0 else
  match rloop (RS p0 false false false None 0) buf with
  | PFail => PFail
  | PUB => PUB
  | POk s =>
    match r_temp s with
    | None => PUB
    | Some t =>
      if r_gz s && negb (r_gn s) then POk (npset_net (r_pat s) t)
      else if r_gf s then POk (npset_point (r_pat s) t)
      else POk (npset_point (npset_node (r_pat s) t) (lit "0"))
    end
  end.

Definition pmap {A B} (f : A -> B) (r : pres A) : pres B :=
  match r with POk a => POk (f a) | PFail => PFail | PUB => PUB end.

(** node4dpat.c:69-120 Parse4DPat *)
Definition Parse4DPat (buf : list Z) : pres npat :=
  if strneqi 5 buf (lit "ZONE ") then
    pmap (fun p => NP PAT_ZONE (pnode p) [] [] []) (rawParse4DPat PAT_ZONE (skipn 5 buf))
  else if strneqi 7 buf (lit "REGION ") then
    pmap (fun p => npset_point (npset_node p []) []) (rawParse4DPat PAT_REGION (skipn 7 buf))
  else if strneqi 4 buf (lit "NET ") then
    pmap (fun p => npset_point (npset_node p []) []) (rawParse4DPat PAT_NET (skipn 4 buf))
  else if strneqi 4 buf (lit "HUB ") then
    pmap (fun p => npset_point p []) (rawParse4DPat PAT_HUB (skipn 4 buf))
  else if strneqi 5 buf (lit "NODE ") then
    pmap (fun p => npset_point p []) (rawParse4DPat PAT_NODE (skipn 5 buf))
  else rawParse4DPat PAT_PATTERN buf.

(** node4dpat.c:122-160 Parse4DDestPat *)
Definition Parse4DDestPat (buf : list Z) : pres npat :=
  if streqi buf (lit "ZONE") then POk (NP PAT_ZONE [] [] [] [])
  else if streqi buf (lit "REGION") then POk (NP PAT_REGION [] [] [] [])
  else if streqi buf (lit "NET") then POk (NP PAT_NET [] [] [] [])
  else if streqi buf (lit "HUB") then POk (NP PAT_HUB [] [] [] [])
  else if streqi buf (lit "NODE") then POk (NP PAT_NODE [] [] [] [])
  else rawParse4DPat PAT_PATTERN buf.

(** node4dpat.c:162-181 NodeCompare; the loop compares pat with the digits of num. *)
Fixpoint nodecmp (pat buf : list Z) : Z :=
  match pat with
  | [] => match buf with [] => 0 | _ => 1 end
  | p :: pr =>
    if p =? 42 then 0 else
    match buf with
    | [] => 1            (* pat[c]!=buf[c] or buf[c]==0: both return 1 *)
    | b :: br => if negb (p =? b) && negb (p =? 63) then 1 else nodecmp pr br
    end
  end.
Definition NodeCompare (pat : list Z) (num : Z) : Z :=
  match pat with [] => 0 | _ => nodecmp pat (dec (u16 num)) end.

(** The configured nodelist (nl.c): whether one is open and its two queries; -1 means
    unknown. External: any functions. *)
Record nodelist := NL { nlopen : bool; nlGetRegion : node4d -> Z; nlGetHub : node4d -> Z }.

Definition zonediff (p : npat) (n : node4d) : bool :=
  negb (zone n =? 0) && negb (NodeCompare (pzone p) (zone n) =? 0).

(** node4dpat.c:183-255 Compare4DPat: 0 = match, 1 = no match *)
Definition Compare4DPat (nl : nodelist) (p : npat) (n : node4d) : Z :=
  match ptype p with
  | PAT_PATTERN =>
      if zonediff p n then 1 else
      if negb (NodeCompare (pnet p) (net n) =? 0) then 1 else
      if negb (NodeCompare (pnode p) (node n) =? 0) then 1 else
      if negb (NodeCompare (ppoint p) (point n) =? 0) then 1 else 0
  | PAT_ZONE => if negb (NodeCompare (pzone p) (zone n) =? 0) then 1 else 0
  | PAT_REGION =>
      if negb (nlopen nl) then 1 else
      let num := nlGetRegion nl (set_point n 0) in
      if num =? -1 then 1 else
      if zonediff p n then 1 else
      if negb (NodeCompare (pnet p) num =? 0) then 1 else 0
  | PAT_NET =>
      if zonediff p n then 1 else
      if negb (NodeCompare (pnet p) (net n) =? 0) then 1 else 0
  | PAT_HUB =>
      if negb (nlopen nl) then 1 else
      let num := nlGetHub nl (set_point n 0) in
      if num =? -1 then 1 else
      if zonediff p n then 1 else
      if negb (NodeCompare (pnet p) (net n) =? 0) then 1 else
      if negb (NodeCompare (pnode p) num =? 0) then 1 else 0
  | PAT_NODE =>
      if zonediff p n then 1 else
      if negb (NodeCompare (pnet p) (net n) =? 0) then 1 else
      if negb (NodeCompare (pnode p) (node n) =? 0) then 1 else 0
  end.

(** node4dpat.c:257-280 Print4DPat *)
Definition Print4DPat (p : npat) : list Z :=
  match ptype p with
  | PAT_PATTERN => pzone p ++ lit ":" ++ pnet p ++ lit "/" ++ pnode p ++ lit "." ++ ppoint p
  | PAT_ZONE => lit "ZONE " ++ pzone p
  | PAT_REGION => lit "REGION " ++ pzone p ++ lit ":" ++ pnet p
  | PAT_NET => lit "NET " ++ pzone p ++ lit ":" ++ pnet p
  | PAT_HUB => lit "HUB " ++ pzone p ++ lit ":" ++ pnet p ++ lit "/" ++ pnode p
  | PAT_NODE => lit "NODE " ++ pzone p ++ lit ":" ++ pnet p ++ lit "/" ++ pnode p
  end.

(** node4dpat.c:282-305 Print4DDestPat *)
Definition Print4DDestPat (p : npat) : list Z :=
  match ptype p with
  | PAT_PATTERN => pzone p ++ lit ":" ++ pnet p ++ lit "/" ++ pnode p ++ lit "." ++ ppoint p
  | PAT_ZONE => lit "ZONE" | PAT_REGION => lit "REGION" | PAT_NET => lit "NET"
  | PAT_HUB => lit "HUB" | PAT_NODE => lit "NODE"
  end.

(** node4dpat.c:307-313 Check4DPatNodelist *)
Definition Check4DPatNodelist (p : npat) : bool :=
  match ptype p with PAT_HUB | PAT_REGION => false | _ => true end.

(** node4dpat.h:20-24 struct Node2DPat, node4dpat.c:315-349 Parse2DPat *)
Record np2d := NP2 { p2net : list Z; p2node : list Z }.
Record r2state := RS2 { r2_net : list Z; r2_gn : bool; r2_temp : option (list Z); r2_tempc : nat }.
Definition r2step (s : r2state) (c : Z) : pres r2state :=
  if c =? 47 then
    if r2_gn s then PFail else
    match r2_temp s with
    | None => PUB
    | Some t => POk (RS2 t true (r2_temp s) 0)
    end
  else if patchar c then
    if Nat.ltb (r2_tempc s) 9
    then POk (RS2 (r2_net s) (r2_gn s) (puttemp (r2_temp s) (r2_tempc s) c) (S (r2_tempc s)))
    else POk s
  else PFail.
Fixpoint r2loop (s : r2state) (buf : list Z) : pres r2state :=
  match buf with
  | [] => POk s
  | c :: r => match r2step s c with POk s' => r2loop s' r | PFail => PFail | PUB => PUB end
  end.
Definition Parse2DPat (buf : list Z) : pres np2d :=
  if streq buf (lit "*") then POk (NP2 (lit "*") (lit "*")) else
  match r2loop (RS2 (lit "*") false None 0) buf with
  | PFail => PFail
  | PUB => PUB
  | POk s => match r2_temp s with None => PUB | Some t => POk (NP2 (r2_net s) t) end
  end.

(** node4dpat.c:351-356 Compare2DPat *)
Definition Compare2DPat (p : np2d) (n f : Z) : Z :=
  if negb (NodeCompare (p2net p) n =? 0) then 1 else
  if negb (NodeCompare (p2node p) f =? 0) then 1 else 0.

(** node4dpat.c:360-368 iswildcard *)
Definition iswildcard (l : list Z) : bool := existsb (fun c => (c =? 42) || (c =? 63)) l.

(** node4dpat.c:370-436 ExpandNodePat; fields of sendto are uint16_t. *)
Definition ExpandNodePat (nl : nodelist) (p : npat) (dest : node4d) : node4d :=
  let n4 := set_point dest 0 in
  let region0 := if nlopen nl then
                   match ptype p with PAT_REGION => nlGetRegion nl n4 | _ => 0 end else 0 in
  let hub0 := if nlopen nl then
                   match ptype p with PAT_HUB => nlGetHub nl n4 | _ => 0 end else 0 in
  let region1 := if region0 =? -1 then 0 else region0 in
  let hub := if hub0 =? -1 then 0 else hub0 in
  let region := if region1 =? 0 then net dest else region1 in
  let pick pat d := if iswildcard pat then d else u16 (atoi pat) in
  match ptype p with
  | PAT_PATTERN => N4 (pick (pzone p) (zone dest)) (pick (pnet p) (net dest))
                      (pick (pnode p) (node dest)) (pick (ppoint p) (point dest))
  | PAT_ZONE => N4 (zone dest) (zone dest) 0 0
  | PAT_REGION => N4 (zone dest) (u16 region) 0 0
  | PAT_NET => N4 (zone dest) (net dest) 0 0
  | PAT_HUB => N4 (zone dest) (net dest) (u16 hub) 0
  | PAT_NODE => N4 (zone dest) (net dest) (node dest) 0
  end.
