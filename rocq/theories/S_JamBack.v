(** Specification of what a message in a JAM area says, and of what comes back when imported
    messages are rescanned. *)
From Verif Require Import Base M_Node4D S_Node4D M_Str M_Pkt M_Mem S_Mem S_Pkt M_Jam S_Jam M_Msg M_JamMb S_JamMb.

(** ** What the fields of a message say *)

(** The control line a field stands for; numbers as in the JAM documentation: 4 message id,
    5 reply id, 7 program id, 2000 other control lines, 2001 SEEN-BY, 2002 PATH. *)
Definition line_of (f : jsub) : list (list Z) :=
  let d := sf_data f in
  let n := sf_lo f in
  if n =? 4 then [1 :: lit "MSGID: " ++ d ++ [13]]
  else if n =? 5 then [1 :: lit "REPLY: " ++ d ++ [13]]
  else if n =? 7 then [1 :: lit "PID: " ++ d ++ [13]]
  else if n =? 2000 then [1 :: d ++ [13]]
  else if n =? 2001 then [lit "SEEN-BY: " ++ d ++ [13]]
  else if n =? 2002 then [1 :: lit "PATH: " ++ d ++ [13]]
  else [].
Definition lines_of (subs : list jsub) : list (list Z) := flat_map line_of subs.
(** the last field with a number; the first enclosed file (9) that has a name *)
Definition lastof (n : Z) (subs : list jsub) : list Z := fold_left (fun v f => if sf_lo f =? n then sf_data f else v) subs [].
Definition firstfile (subs : list jsub) : list Z :=
  match find (fun f => (sf_lo f =? 9) && negb (Nat.eqb (length (sf_data f)) 0)) subs with Some f => sf_data f | None => [] end.
(** Attributes: bit in the FidoNet header, bit in JAM: private, crash, file attach, hold, file
    request, return receipt request. *)
Definition attrbits : list (Z * Z) := [(0, 2); (1, 8); (4, 13); (9, 7); (11, 12); (12, 16)].
Definition shown_attr (jam : Z) (file : bool) (fido : Z) : Prop :=
  forall k, 0 <= k -> Z.testbit fido k = existsb (fun p => (k =? fst p) && Z.testbit jam (snd p)) attrbits || ((k =? 4) && file).
(** Fields that hold text without NULs, and that fit into the buffers; messages with fields
    for flags (2003) or with attributes that need a FLAGS line (archive/sent, immediate,
    direct, truncate, kill file, confirm, force pickup) are not covered, see C53_flags_refuted. *)
Definition fine_field (f : jsub) : Prop :=
  cstring (sf_data f) /\ sf_lo f <> 2003 /\ (In (sf_lo f) [0; 1; 2; 3; 6; 9] -> (length (sf_data f) < 200)%nat).
Definition plain_attr (a : Z) : Prop := Forall (fun k => Z.testbit a k = false) [6; 9; 10; 14; 15; 17; 22].

(** The lines added behind the control lines: the routing of netmail; TID or RESCANNED. *)
Definition routing (flags : Z) (o d : node4d) : list (list Z) :=
  (if negb (zone o =? zone d) || Z.testbit flags 3
   then [1 :: lit "INTL " ++ dec (zone d) ++ lit ":" ++ dec (net d) ++ lit "/" ++ dec (node d) ++ lit " " ++
         dec (zone o) ++ lit ":" ++ dec (net o) ++ lit "/" ++ dec (node o) ++ [13]] else []) ++
  (if point o =? 0 then [] else [1 :: lit "FMPT " ++ dec (point o) ++ [13]]) ++
  (if point d =? 0 then [] else [1 :: lit "TOPT " ++ dec (point d) ++ [13]]).
Definition addedlines (cfg : jcfg) (resc : bool) : list (list Z) :=
  if resc then [1 :: lit "RESCANNED " ++ dec (zone (jc_aka cfg)) ++ lit ":" ++ dec (net (jc_aka cfg)) ++ lit "/" ++
                dec (node (jc_aka cfg)) ++ lit "." ++ dec (point (jc_aka cfg)) ++ [13]]
  else if Z.testbit (jc_flags cfg) 16 then [1 :: lit "TID: CrashMail II/Linux 1.5.1" ++ [13]] else [].
(** The message handed on for a stored message. *)
Definition shown (cfg : jcfg) (fidodate : Z -> list Z) (resc : bool) (m : amsg) (mm : memmsg) : Prop :=
  let subs := a_subs m in
  From mm = firstn 35 (lastof 2 subs) /\ To mm = firstn 35 (lastof 3 subs) /\
  Subject mm = firstn 71 (match firstfile subs with [] => lastof 6 subs | f => f end) /\
  DateTime mm = fidodate (h_written (a_hdr m) + jc_off cfg) /\ Cost mm = h_cost (a_hdr m) mod 65536 /\
  shown_attr (h_attr (a_hdr m)) (match firstfile subs with [] => false | _ => true end) (Attr mm) /\
  if jc_net cfg then
    Area mm = [] /\
    mmtext mm = concat (lines_of subs) ++ concat (routing (jc_flags cfg) (OrigNode mm) (DestNode mm)) ++ concat (addedlines cfg resc) ++ a_text m
  else
    Area mm = jc_tag cfg /\
    mmtext mm = concat (plain_lines (lines_of subs)) ++ concat (addedlines cfg resc) ++ a_text m /\
    Path mm = map (fun l => striptrail (firstn 99 (skipn 7 l))) (path_lines (lines_of subs)) /\
    fold_left (fun o l => obind o (AddSeenby (skipn 9 l))) (filter seenbyb (lines_of subs)) (Some []) = Some (SeenBy mm).

(** Messages another program may have stored that are handed on: the fields as above, and
    in echomail the text up to a NUL consists of lines, in which origin lines are closed. *)
Definition fine_text (t : list Z) : Prop :=
  exists ls, cstr t = concat ls /\
    Forall (fun l => (exists r, l = r ++ [13] /\ ~ In 13 r) /\ (is_origin_line l -> (length l <= 200)%nat /\ (wf_origin l \/ ~ In 40 l))) ls.
Definition fine_msg (cfg : jcfg) (m : amsg) : Prop :=
  Forall fine_field (a_subs m) /\ plain_attr (h_attr (a_hdr m)) /\ (jc_net cfg = false -> fine_text (a_text m)).

(** ** Rescanning *)
(** the messages there are, deleted ones left out *)
Definition present (s : abase) (n : Z) : bool := match msgat s n with Some m => negb (gone (a_hdr m)) | None => false end.
(** the last [max] numbers, all if that is 0 *)
Definition lastnumbers (max : Z) (s : abase) : list Z :=
  numbers (if max =? 0 then x_num s else Z.max (x_num s) (nextnum s - max)) (nextnum s).

(** ** Imported messages *)

(** The text is made of whole lines, none of them cut by the end of a piece of memory. *)
Definition wholeline (l : list Z) : Prop := exists r, l = r ++ [13] /\ cstring r /\ ~ In 13 r /\ ~ In 10 r.
Definition textlines (mm : memmsg) (ls : list (list Z)) : Prop :=
  Forall wholeline ls /\ exists css, rev (TextChunks mm) = map (@concat Z) css /\ concat css = ls.
(** Control lines and routing lines. *)
Definition isctl (l : list Z) : bool := match l with c :: _ => c =? 1 | [] => false end.
Definition isroute (l : list Z) : bool := prefixb (1 :: lit "INTL") l || prefixb (1 :: lit "FMPT") l || prefixb (1 :: lit "TOPT") l.
(** What becomes of another control line: the text behind the keyword is cut to 99
    characters and blanks at both ends are removed. *)
Definition body (k : nat) (l : list Z) : list Z := stripleadtrail (firstn 99 (removelast (skipn k l))).
Definition norm (l : list Z) : list Z :=
  if prefixb (1 :: lit "PID:") l then 1 :: lit "PID: " ++ body 5 l ++ [13]
  else if prefixb (1 :: lit "MSGID:") l then 1 :: lit "MSGID: " ++ body 7 l ++ [13]
  else if prefixb (1 :: lit "REPLY:") l then 1 :: lit "REPLY: " ++ body 7 l ++ [13]
  else 1 :: body 1 l ++ [13].
Definition controls (ls : list (list Z)) : list (list Z) := filter (fun l => isctl l && negb (isroute l)) ls.
Definition textual (ls : list (list Z)) : list (list Z) := filter (fun l => negb (isctl l)) ls.
(** a line in the usual form is not changed: one blank behind the keyword, none at the ends *)
Definition usual (l : list Z) : Prop :=
  (exists k v, In k [lit "PID: "; lit "MSGID: "; lit "REPLY: "] /\ l = 1 :: k ++ v ++ [13] /\ stripleadtrail v = v /\ (length v <= 98)%nat) \/
  (exists v, l = 1 :: v ++ [13] /\ stripleadtrail v = v /\ (length v <= 99)%nat /\
     ~ starts_with (lit "PID:") v /\ ~ starts_with (lit "MSGID:") v /\ ~ starts_with (lit "REPLY:") v).

(** Messages covered: header fields fit; no FLAGS line; no line becomes a PATH line
    (echomail) or a routing line (netmail) by removing blanks; origin lines of echomail are
    closed. *)
Definition origin_fine (l : list Z) : Prop := is_origin_line l -> (length l <= 200)%nat /\ (wf_origin l \/ ~ In 40 l).
Definition jam_lines_ok (net : bool) (ls : list (list Z)) : Prop :=
  ls <> [] /\
  Forall (fun l => ~ starts_with (1 :: lit "FLAGS:") l /\ (net = false -> origin_fine l) /\
                   (isctl l = true -> isroute l = false -> if net then isroute (norm l) = false else ~ is_path_line (norm l))) ls.
Definition jam_ok (cfg : jcfg) (i : jimp) (ls : list (list Z)) : Prop :=
  let mm := ji_mm i in
  cstring (From mm) /\ cstring (To mm) /\ cstring (Subject mm) /\ hdr_ok mm /\ textlines mm ls /\ jam_lines_ok (jc_net cfg) ls /\
  if jc_net cfg then Area mm = [] /\ SeenBy mm = [] /\ Path mm = []
  else Area mm <> [] /\ jc_tag cfg <> [] /\ valid4d (Origin4D mm) /\ pairs_ok (entries (SeenBy mm)) /\ Forall (fun l => l = [] \/ pathline_ok l) (Path mm).
(** With file attach the subject is replaced by the first name in it. *)
Fixpoint word (s : list Z) : list Z := match s with c :: r => if (c =? 32) || (c =? 44) then [] else c :: word r | [] => [] end.
Fixpoint firstword (s : list Z) : list Z :=
  match s with c :: r => if (c =? 32) || (c =? 44) then firstword r else word s | [] => [] end.
Definition subject_back (mm : memmsg) : list Z :=
  if Z.testbit (Attr mm) 4 then match firstword (Subject mm) with [] => Subject mm | w => w end else Subject mm.
(** the date goes through seconds since 1970, in 32 bits *)
Definition date_back (cfg : jcfg) (i : jimp) (fidodate : Z -> list Z) : list Z :=
  fidodate ((ji_date i - jc_off cfg) mod 4294967296 + jc_off cfg).
Definition jam_back (cfg : jcfg) (fidodate : Z -> list Z) (i : jimp) (ls : list (list Z)) (mm' : memmsg) : Prop :=
  let mm := ji_mm i in
  From mm' = From mm /\ To mm' = To mm /\ Subject mm' = subject_back mm /\ DateTime mm' = date_back cfg i fidodate /\ Cost mm' = Cost mm /\
  (forall k, 0 <= k -> Z.testbit (Attr mm') k = Z.testbit (Attr mm) k && existsb (Z.eqb k) [0; 1; 4; 9; 11; 12]) /\
  if jc_net cfg then
    Area mm' = [] /\ OrigNode mm' = OrigNode mm /\ DestNode mm' = DestNode mm /\
    mmtext mm' = concat (map norm (controls ls)) ++ concat (routing (jc_flags cfg) (OrigNode mm) (DestNode mm)) ++ concat (addedlines cfg true) ++ concat (textual ls)
  else
    Area mm' = jc_tag cfg /\ OrigNode mm' = Origin4D mm /\
    mmtext mm' = concat (map norm (controls ls)) ++ concat (addedlines cfg true) ++ concat (textual ls) /\
    Path mm' = Path mm /\
    (forall x, x <> (0, 0) -> (In x (entries (SeenBy mm')) <-> Z.testbit (jc_flags cfg) 6 = true /\ In x (entries (SeenBy mm)))).
(** What other programs and linking of replies may change of a stored message: everything but
    the fields, the text, the date, the attributes and the cost. *)
Definition same_mail (m m' : amsg) : Prop :=
  a_subs m' = a_subs m /\ a_text m' = a_text m /\ h_written (a_hdr m') = h_written (a_hdr m) /\
  h_attr (a_hdr m') = h_attr (a_hdr m) /\ h_cost (a_hdr m') = h_cost (a_hdr m).
(** the messages looked at can be handed on *)
Definition all_fine (cfg : jcfg) (s : abase) (ns : list Z) : Prop :=
  forall n m, In n ns -> msgat s n = Some m -> gone (a_hdr m) = false -> fine_msg cfg m.
