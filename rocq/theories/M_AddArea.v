(** Model of AddArea (src/crashmail/handle.c) with the directory and the description of the new
    area, on the configuration of M_Upd and the area lists of M_Settings. M_Echo has the part of
    it that tossing looks at. *)
From Verif Require Import Base M_Node4D M_Str M_Mem M_Cfg M_Out M_Upd M_Filter M_Net M_Settings.
From Verif Require M_Echo.

(** ** Description *)

(** "for(c=0;buf[c]>32;c++)": chars are signed *)
Fixpoint word33 (l : list Z) : list Z * list Z :=
  match l with
  | c :: r => if (32 <? c) && (c <? 128) then let '(a, b) := word33 r in (c :: a, b) else ([], l)
  | [] => ([], [])
  end.
(** handle.c:49 "while(buf[c]<=32 && buf[c]!=0) c++" *)
Fixpoint skip32 (l : list Z) : list Z :=
  match l with
  | c :: r => if (c <=? 32) || (128 <=? c) then skip32 r else l
  | [] => []
  end.
(** handle.c:54 "while(buf[c]!=0 && buf[c]!=10 && buf[c]!=13 ...)" *)
Fixpoint upcrlf (l : list Z) : list Z :=
  match l with
  | c :: r => if (c =? 10) || (c =? 13) then [] else c :: upcrlf r
  | [] => []
  end.
(** handle.c:38-60: what a line of the file says about the area *)
Definition descline (area line : list Z) : option (list Z) :=
  let '(w, rest) := word33 line in
  match rest with
  | [] => None
  | _ :: r => if streqi w area then match skip32 r with [] => None | t => Some (firstn 77 (upcrlf t)) end else None
  end.
(** handle.c:36-64: a file; every line takes a character, so its length is enough fuel *)
Fixpoint descfile (fuel : nat) (area s : list Z) : option (list Z) :=
  match fuel with
  | O => None
  | S f => match osFGets 199 s with
           | None => None
           | Some (l, r) => match descline area l with Some d => Some d | None => descfile f area r end
           end
  end.
(** handle.c:25-72 GetDescription: the text put into the description. [node] is the position of
    the node in the list of nodes, [files] are the contents of the files that can be opened *)
Fixpoint GetDescription (als : list sarealist) (files : list Z -> option (list Z)) (area : list Z) (node : option nat) : option (list Z) :=
  match als with
  | [] => None
  | al :: r =>
    if match node with Some i => Nat.eqb (sal_node al) i | None => false end && flag (sal_flags al) SAL_DESC then
      match files (sal_file al) with
      | None => GetDescription r files area node
      | Some s => match descfile (length s) area s with Some d => Some d | None => GetDescription r files area node end
      end
    else GetDescription r files area node
  end.

(** ** Directory *)

(** handle.c:204-211: characters that are not for names of files; chars are signed *)
Definition forbiddenchars : list Z := [34; 35; 39; 96; 40; 41; 42; 44; 46; 47; 58; 59; 60; 62; 124].
Definition cleanname (name : list Z) : list Z :=
  map (fun c => if (c <? 33) || (126 <? c) || mem c forbiddenchars then 95 else c) name.
(** handle.c:117-146: the loop of MakeDirectory; [o] is what is in dest, [d] its length.
    strncpy fills dest up to destsize-1 *)
Fixpoint expand (destsize : nat) (name lower serial defdir o : list Z) : list Z :=
  match defdir with
  | [] => o
  | c :: r =>
    if Nat.eqb (length o) (destsize - 1) then o else
    match r with
    | x :: r' =>
      if (c =? 37) && (Z.lor x 32 =? 97) then expand destsize name lower serial r' (firstn (destsize - 1) (o ++ name))
      else if (c =? 37) && (Z.lor x 32 =? 108) then expand destsize name lower serial r' (firstn (destsize - 1) (o ++ lower))
      else if (c =? 37) && (Z.lor x 32 =? 56) then expand destsize name lower serial r' (firstn (destsize - 1) (o ++ serial))
      else expand destsize name lower serial r (o ++ [c])
    | [] => expand destsize name lower serial r (o ++ [c])
    end
  end.
(** handle.c:99-146 MakeDirectory with the new value of lastt ("%08lx": eight digits for numbers
    below 2^32). The arrays lowercase[200] and shortname[50] are large enough *)
Definition nexttime (now lastt : Z) : Z := if lastt =? 0 then now else lastt + 1.
Definition MakeDirectory (destsize : nat) (defdir name : list Z) (t : Z) : list Z :=
  expand destsize name (map tolower name) (hex 8 t) defdir [].

(** ** The new area *)

(** handle.c:74-95 AddTossNode *)
Definition addtoss (l : list (nat * Z)) (i : nat) (flags : Z) : list (nat * Z) :=
  if existsb (fun t : nat * Z => Nat.eqb (fst t) i) l then l else l ++ [(i, flags)].
(** handle.c:172-199: the default area *)
Definition template (areas : list farea) (g : Z) : option farea :=
  let bygroup := if g =? 0 then None else
    find (fun a => strneqi 8 (fa_tag a) (lit "DEFAULT_") && mem g (firstn 49 (skipn 8 (fa_tag a)))) areas in
  match bygroup with Some a => Some a | None => find (fun a => streqi (fa_tag a) (lit "DEFAULT")) areas end.
(** handle.c:148-278 AddArea: the new area and the new value of lastt. [now]: time(NULL). [None]:
    undefined behaviour, the name does not fit in Tagname[80], or there is no AKA (the area gets
    a NULL pointer) *)
Definition AddArea (c : fconf) (als : list sarealist) (files : list Z -> option (list Z)) (now lastt : Z)
    (name : list Z) (node mynode : node4d) (active forcepassthru : bool) : option (farea * Z) :=
  if (80 <=? length name)%nat then None else
  match (match findpos (fun k => Compare4D k mynode =? 0) (cf_akas c) with
         | Some i => Some i | None => match cf_akas c with [] => None | _ => Some O end end) with
  | None => None
  | Some ak =>
    let ci := findpos (fun n => Compare4D (fn_node n) node =? 0) (cf_nodes c) in
    let g := match ci with Some i => match nth_error (cf_nodes c) i with Some n => fn_defgroup n | None => 0 end | None => 0 end in
    let def := template (cf_areas c) g in
    let t := match def with Some _ => nexttime now lastt | None => lastt end in
    let path := match def with Some d => MakeDirectory 80 (fa_path d) (cleanname name) t | None => [] end in
    let mb := match def with Some d => if forcepassthru then None else fa_mb d | None => None end in
    let desc0 := match def with Some d => fa_desc d | None => [] end in
    let desc := match GetDescription als files name ci with Some s => s | None => desc0 end in
    let fl0 := match def with Some d => M_Echo.takeflags (fa_flags d) | None => 0 end in
    let fl := if active then fl0 else AREA_UNCONFIRMED in
    let tn0 := match def with Some d => fold_left (fun l t => addtoss l (fst t) (snd t)) (fa_toss d) [] | None => [] end in
    let tn := match ci with
              | None => tn0
              | Some i =>
                fold_left (fun l j => match nth_error (cf_nodes c) j with
                                      | Some n => if mem g (fn_addgroups n)
                                                  then addtoss l j (if flag fl AREA_DEFREADONLY || mem g (fn_rogroups n) then TOSSNODE_READONLY else 0)
                                                  else l
                                      | None => l
                                      end) (seq 0 (length (cf_nodes c))) (addtoss tn0 i TOSSNODE_FEED)
              end in
    Some (FA true ak fl AREATYPE_ECHOMAIL name desc mb path g tn [] []
            (match def with Some d => fa_keepnum d | None => 0 end) (match def with Some d => fa_keepdays d | None => 0 end), t)
  end.

(** ** A run: requests for new areas, one after the other *)
Record areq := RQ { rq_now : Z; rq_name : list Z; rq_node : node4d; rq_mynode : node4d; rq_active : bool; rq_pass : bool }.
Definition setar (c : fconf) (l : list farea) : fconf := FC (cf_akas c) (cf_packers c) (cf_nodes c) l (cf_other c).
Fixpoint addall (als : list sarealist) (files : list Z -> option (list Z)) (rs : list areq) (c : fconf) (lastt : Z) : option (fconf * Z) :=
  match rs with
  | [] => Some (c, lastt)
  | r :: rest =>
    match AddArea c als files (rq_now r) lastt (rq_name r) (rq_node r) (rq_mynode r) (rq_active r) (rq_pass r) with
    | None => None
    | Some (a, t) => addall als files rest (setar c (cf_areas c ++ [a])) t
    end
  end.
