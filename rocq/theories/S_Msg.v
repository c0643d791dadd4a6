(** Specification of message areas in *.MSG format. *)
From Verif Require Import Base M_Node4D M_Mem S_Mem M_Fs S_Pkt M_Msg.

(** ** Directories *)

(** the message with this number: the file "<n>.msg" *)
Definition msgfile (dir : fsys) (n : Z) : option (list Z) := fget dir (dec n ++ lit ".msg").
(** The number of a file name: a name that ends in ".msg" in any case and is longer than
    that has the number its leading digits give, as atol reads them. *)
Definition msgnum (name : list Z) (n : Z) : Prop :=
  (exists p s, name = p ++ s /\ p <> [] /\ map tolower s = lit ".msg") /\ atol name = n.
(** no number is as large as the largest 32 bit number *)
Definition sane (dir : fsys) : Prop := forall name n, In name (map fst dir) -> msgnum name n -> n < 4294967295.

(** ** The stored message: 190 bytes of header, then the text and a NUL *)
Definition attr_of (b : list Z) : Z := get16 b 186.
Definition replyto_of (b : list Z) : Z := get16 b 184.
Definition complete_hdr (b : list Z) : Prop := (190 <= length b)%nat.
(** fts-0001: bit 3 sent, bit 7 kill/sent, bit 8 local *)
Definition is_sent (b : list Z) : Prop := Z.testbit (attr_of b) 3 = true.
Definition is_local (b : list Z) : Prop := Z.testbit (attr_of b) 8 = true.
(** waiting to be exported *)
Definition waiting (b : list Z) : Prop := complete_hdr b /\ is_local b /\ ~ is_sent b.

(** ** What a scan does to the file of an exported message: deleted if kill/sent is set, that
    is allowed and the area is for netmail; rewritten completely with the sent bit if so
    configured; otherwise only the sent bit is set (and in a netmail area the zones may be
    filled in). *)
Definition kills (cfg : mcfg) (b : list Z) : Prop :=
  Z.testbit (mc_flags cfg) 25 = true /\ Z.testbit (attr_of b) 7 = true /\ mc_net cfg = true.
Definition sent_copy (net_ : bool) (b b' : list Z) : Prop :=
  length b' = length b /\
  (forall k, 0 <= k < 16 -> Z.testbit (attr_of b') k = if k =? 3 then true else Z.testbit (attr_of b) k) /\
  (forall i, ~ (186 <= i < 188)%nat -> ~ (net_ = true /\ (176 <= i < 180)%nat) -> nth i b' 0 = nth i b 0).
Definition marked (cfg : mcfg) (b : list Z) (o : option (list Z)) : Prop :=
  (kills cfg b /\ o = None) \/
  (~ kills cfg b /\ exists b', o = Some b' /\ complete_hdr b' /\ is_sent b' /\
     (Z.testbit (mc_mflags cfg) 2 = false -> sent_copy (mc_net cfg) b b')).
(** the effect of a scan that exported the numbers [ns]: these files are marked, all other
    files are as before; new files may have appeared, but none that waits for export *)
Definition scanned (cfg : mcfg) (dir dir' : fsys) (ns : list Z) : Prop :=
  (forall n, In n ns -> exists b, msgfile dir n = Some b /\ marked cfg b (msgfile dir' n)) /\
  (forall name, (forall n, In n ns -> name <> dec n ++ lit ".msg") ->
     match fget dir name with
     | Some b => fget dir' name = Some b
     | None => forall b, fget dir' name = Some b -> ~ waiting b
     end).

(** ** Imports *)
Definition imp_ok (i : imp) : Prop := length (im_junk i) = 190%nat /\ Z.testbit (Attr (im_mm i)) 8 = false.
(** how many messages the handler imports while it handles the messages [out] *)
Definition nimports (handle : Z -> memmsg -> hres) (out : list (Z * memmsg)) : Z :=
  fold_right (fun x n => Z.of_nat (length (hr_imports (handle (fst x) (snd x)))) + n) 0 out.

(** the high water mark stored in a directory: the reply field of 1.msg, else 0 *)
Definition hwmark (cfg : mcfg) (dir : fsys) : Z :=
  if Z.testbit (mc_mflags cfg) 1 then
    match msgfile dir 1 with
    | Some b => if Nat.leb 190 (length b) then replyto_of b else 0
    | None => 0
    end
  else 0.

(** ** The text of an exported message *)

(** the leading lines that begin with a control-A or a line feed, and the rest *)
Fixpoint headlines (ls : list (list Z)) : list (list Z) * list (list Z) :=
  match ls with
  | l :: r => match l with
              | c :: _ => if (c =? 1) || (c =? 10) then let '(a, b) := headlines r in (l :: a, b) else ([], ls)
              | [] => ([], ls)
              end
  | [] => ([], [])
  end.
(** the line added behind them: RESCANNED with the address of the area when rescanning, else
    the tosser identification if so configured *)
Definition added (cfg : mcfg) (resc : bool) : list (list Z) :=
  if resc then [1 :: lit "RESCANNED " ++ dec (zone (mc_aka cfg)) ++ lit ":" ++ dec (net (mc_aka cfg)) ++ lit "/" ++
                dec (node (mc_aka cfg)) ++ lit "." ++ dec (point (mc_aka cfg)) ++ [13]]
  else if Z.testbit (mc_flags cfg) 16 then [1 :: lit "TID: CrashMail II/Linux 1.5.1" ++ [13]] else [].
Definition export_lines (cfg : mcfg) (resc : bool) (extra : list (list Z)) (ls : list (list Z)) : list (list Z) :=
  let '(k, r) := headlines ls in k ++ added cfg resc ++ extra ++ r.

(** header fields: text up to the first NUL, without the last byte of the field *)
Definition fieldtext (b : list Z) (off len : nat) : list Z := firstn (len - 1) (M_Str.cstr (firstn len (skipn off b))).
(** attribute bits that are passed on: private, crash, file attach, hold, file request,
    return receipt request, is return receipt, audit *)
Definition kept_bits : list Z := [0; 1; 4; 9; 11; 12; 13; 14].
Definition kept_attr (a a' : Z) : Prop := forall k, 0 <= k -> Z.testbit a' k = Z.testbit a k && existsb (Z.eqb k) kept_bits.
Definition same_fields (b : list Z) (mm : memmsg) : Prop :=
  From mm = fieldtext b 0 36 /\ To mm = fieldtext b 36 36 /\ Subject mm = fieldtext b 72 72 /\ DateTime mm = fieldtext b 144 20 /\
  kept_attr (attr_of b) (Attr mm) /\ Cost mm = get16 b 170.

(** ** Histories *)

(** no message with this number waits for export *)
Definition none_waits (dir : fsys) (n : Z) : Prop := forall b, msgfile dir n = Some b -> ~ waiting b.
(** the high water mark is unused or names an existing message *)
Definition hw_exists (cfg : mcfg) (dir : fsys) : Prop := hwmark cfg dir = 0 \/ msgfile dir (hwmark cfg dir) <> None.
(** a message number not below any other *)
Definition largest (dir : fsys) (h : Z) : Prop := forall name n, In name (map fst dir) -> msgnum name n -> n <= h.

(** ** What an exported message says *)

(** the text of a stored message: it ends with a NUL or with the file *)
Definition textof (b t : list Z) : Prop := skipn 190 b = t \/ exists rest, skipn 190 b = t ++ 0 :: rest.
Definition is_intl_line (l : list Z) : Prop := starts_with (1 :: lit "INTL") l.
Definition intl_text (z dnet dnode onet onode : Z) : list Z :=
  1 :: lit "INTL " ++ dec z ++ lit ":" ++ dec dnet ++ lit "/" ++ dec dnode ++ lit " " ++
  dec z ++ lit ":" ++ dec onet ++ lit "/" ++ dec onode ++ [13].
(** Echomail made of whole lines, with the origin lines closed: the lines that are neither
    SEEN-BY nor PATH are the text, with the added line behind the leading control lines;
    the PATH lines without the keyword and the end are the path; the SEEN-BY lines
    behind the keyword, read one after the other (C11), give the list. *)
Definition exported_echo (cfg : mcfg) (resc : bool) (b : list Z) (mm : memmsg) : Prop :=
  same_fields b mm /\ Area mm = mc_tag cfg /\
  forall t, textof b t -> cstring t -> eoltext t -> Forall (fun l => is_origin_line l -> wf_origin l \/ ~ In 40 l) (pieces t) ->
    mmtext mm = concat (plain_lines (export_lines cfg resc [] (pieces t))) /\
    Path mm = map (fun l => striptrail (firstn 99 (skipn 7 l))) (path_lines (pieces t)) /\
    fold_left (fun o l => obind o (AddSeenby (skipn 9 l))) (filter seenbyb (pieces t)) (Some []) = Some (SeenBy mm).
(** Netmail: all lines are the text. If no leading control line is an INTL line, then the
    message is taken to be within the zone of the area's address and gets an INTL line if
    so configured. *)
Definition exported_net (cfg : mcfg) (resc : bool) (b : list Z) (mm : memmsg) : Prop :=
  same_fields b mm /\ Area mm = [] /\
  forall t, textof b t -> cstring t -> eoltext t -> (forall i, In i [166; 168; 172; 174]%nat -> is_u16 (get16 b i)) ->
    exists extra, mmtext mm = concat (export_lines cfg resc extra (pieces t)) /\
    (extra = [] \/ extra = [intl_text (zone (mc_aka cfg)) (get16 b 174) (get16 b 166) (get16 b 172) (get16 b 168)]) /\
    (Forall (fun l => ~ is_intl_line l) (fst (headlines (pieces t))) ->
       (extra <> [] <-> Z.testbit (mc_flags cfg) 3 = true) /\
       (Forall (fun l => ~ is_intl_line l) (snd (headlines (pieces t))) -> zone (OrigNode mm) = zone (mc_aka cfg) /\ zone (DestNode mm) = zone (mc_aka cfg))).
Definition exported (cfg : mcfg) (resc : bool) (b : list Z) (mm : memmsg) : Prop :=
  if mc_net cfg then exported_net cfg resc b mm else exported_echo cfg resc b mm.

(** ** Imported messages that are handed on again by a rescan *)
Definition came_back (mm mm' : memmsg) : Prop :=
  From mm' = From mm /\ To mm' = To mm /\ Subject mm' = Subject mm /\ DateTime mm' = DateTime mm /\
  Cost mm' = Cost mm /\ kept_attr (Attr mm) (Attr mm').
Definition echo_back (cfg : mcfg) (mm mm' : memmsg) : Prop :=
  came_back mm mm' /\ Area mm' = mc_tag cfg /\
  mmtext mm' = concat (export_lines cfg true [] (pieces (mmtext mm))) /\
  Path mm' = filter (fun l => negb (streq l [])) (Path mm) /\
  (forall x, x <> (0, 0) -> (In x (entries (SeenBy mm')) <-> Z.testbit (mc_flags cfg) 6 = true /\ In x (entries (SeenBy mm)))).
Definition net_back (cfg : mcfg) (mm mm' : memmsg) : Prop :=
  came_back mm mm' /\ Area mm' = [] /\
  exists extra, mmtext mm' = concat (export_lines cfg true extra (pieces (mmtext mm))) /\
    (extra = [] \/ extra = [intl_text (zone (mc_aka cfg)) (net (DestNode mm)) (node (DestNode mm)) (net (OrigNode mm)) (node (OrigNode mm))]).
