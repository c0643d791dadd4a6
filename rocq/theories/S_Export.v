(** CrashExport: specification. The list is compared with what CrashMail reads from the same
    configuration file. *)
From Verif Require Import Base M_Node4D M_Str M_Cfg M_Fs M_Upd S_Upd M_Export.

(** a text of the configuration, which CrashMail cuts to 79 characters and CrashExport to 99 *)
Definition shown (t t' : list Z) : Prop := firstn 79 t = t' /\ (length t <= 99)%nat /\ ((length t' < 79)%nat -> t = t').
(** the text of an own address, cut to 49 characters *)
Definition akatext (k : node4d) (t : list Z) : Prop := exists w n, t = firstn 49 w /\ Parse4D w = Some n /\ Compare4D n k = 0.
(** the addresses of the nodes an area is sent to, separated by blanks *)
Fixpoint joined (ns : list node4d) : list Z :=
  match ns with
  | [] => []
  | [n] => Print4D n
  | n :: r => Print4D n ++ lit " " ++ joined r
  end.

(** the areas a format is about *)
Definition included (f : xformat) (a : farea) : bool :=
  match f with
  | XAreasBbs => negb (fa_type a =? AREATYPE_NETMAIL) && negb (fa_type a =? AREATYPE_LOCAL)
  | XForward | XForwardNoDesc => fa_type a =? AREATYPE_ECHOMAIL
  | XGolded | XTimed => ne (fa_path a)
  end.
(** in one of the groups asked for *)
Definition ingroup (grp : option (list Z)) (a : farea) : bool :=
  match grp with None => true | Some s => existsb (fun c => toupper c =? fa_group a) s end.
Definition wanted (f : xformat) (grp : option (list Z)) (a : farea) : bool :=
  ne (fa_tag a) && negb (flag (fa_flags a) AREA_UNCONFIRMED) && negb (fa_type a =? AREATYPE_DEFAULT) && ingroup grp a && included f a.

(** the line of an area *)
Definition entry (f : xformat) (type : Z) (jam passthrough : bool) (tag desc path aka : list Z) (g : Z) (links : list node4d) : list Z :=
  match f with
  | XAreasBbs => (if passthrough then lit "#" ++ tag else if jam then lit "!" ++ path else path) ++ lit " " ++ tag ++ lit " " ++ joined links ++ [10]
  | XForward => tag ++ (if ne desc then lit " " ++ desc else []) ++ [10]
  | XForwardNoDesc => tag ++ [10]
  | XGolded => lit "AREADEF " ++ tag ++ lit " " ++ [34] ++ map (fun c => if c =? 34 then 39 else c) desc ++ [34] ++ lit " " ++ (if g =? 0 then lit "0" else [g]) ++ lit " " ++
      (if type =? AREATYPE_NETMAIL then lit "NET" else if type =? AREATYPE_LOCAL then lit "LOCAL" else lit "ECHO") ++ lit " " ++
      (if jam then lit "JAM" else lit "FTS1") ++ lit " " ++ path ++ lit " " ++ aka ++ lit " " ++ (if type =? AREATYPE_NETMAIL then lit "(Loc Pvt)" else lit "(Loc)") ++ [10]
  | XTimed => (if type =? AREATYPE_NETMAIL then lit "NetArea" else if type =? AREATYPE_LOCAL then lit "LocalArea" else lit "EchoArea") ++ lit " " ++
      [34] ++ map (fun c => if c =? 34 then 39 else c) desc ++ [34] ++ lit " " ++ tag ++ lit " " ++ path ++ lit " -P" ++ aka ++ (if jam then lit " -J" else []) ++ [10]
  end.
(** message bases: 0 is MSG, 1 is JAM *)
Definition isjam (a : farea) : bool := match fa_mb a with Some 1%nat => true | _ => false end.
Definition pass (a : farea) : bool := match fa_mb a with None => true | _ => false end.
Definition describes (akas nodes : list node4d) (f : xformat) (a : farea) (t : list Z) : Prop :=
  exists tag desc path aka g links, shown tag (fa_tag a) /\ shown desc (fa_desc a) /\ shown path (fa_path a) /\
    (exists k, nth_error akas (fa_aka a) = Some k /\ akatext k aka) /\ toupper g = fa_group a /\
    Forall2 (fun n (x : nat * Z) => exists k, nth_error nodes (fst x) = Some k /\ Compare4D n k = 0) links (fa_toss a) /\
    t = entry f (fa_type a) (isjam a) (pass a) tag desc path aka g links.

(** the name of the sysop, from the last line that gives it *)
Definition sysopof (c : fconf) : list Z :=
  match find (fun l => kw (keyword l) "SYSOP") (rev (cf_other c)) with
  | Some l => fst (fst (tok 100 (snd (tok 30 l))))
  | None => lit "Sysop"
  end.
(** no two of the signs ! @ % in front of an address *)
Definition sign (c : Z) : Prop := c = 33 \/ c = 37 \/ c = 64.
Definition onesign (w : list Z) : Prop := forall c d r, w = c :: d :: r -> sign c -> ~ sign d.
Definition onesigns (s : list Z) : Prop := Forall (fun l => kw (keyword l) "EXPORT" = true -> Forall onesign (allwords 100 (snd (tok 30 l)))) (flines s).
(** the characters of a file *)
Definition octets (s : list Z) : Prop := Forall (fun c => 0 <= c < 256) s.
(** at most 41 nodes for every area *)
Definition fewlinks (c : fconf) : Prop := Forall (fun a => (length (fa_toss a) <= 41)%nat) (cf_areas c).
(** the words for the formats, in upper or lower case *)
Inductive formatword : list Z -> xformat -> Prop :=
| fw_bbs w : streqi w (lit "areasbbs") = true -> formatword w XAreasBbs
| fw_forward w : streqi w (lit "forward") = true -> formatword w XForward
| fw_nodesc w : streqi w (lit "forwardnodesc") = true -> formatword w XForwardNoDesc
| fw_golded w : streqi w (lit "golded") = true -> formatword w XGolded
| fw_timed w : streqi w (lit "timed") = true -> formatword w XTimed.
(** the whole file: a heading, then the areas *)
Definition exported (time : list Z) (f : xformat) (grp : option (list Z)) (c : fconf) (t : list Z) : Prop :=
  exists ts, Forall2 (describes (cf_akas c) (map fn_node (cf_nodes c)) f) (filter (wanted f grp) (cf_areas c)) ts /\
    t = lit "; Generated by CrashExport 1.5.1" ++ [10] ++ lit "; " ++ time ++ [10] ++
        (match f with XAreasBbs => lit "Default origin ! " ++ sysopof c ++ [10] | _ => [] end) ++ concat ts.
