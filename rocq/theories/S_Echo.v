(** Specification of echomail processing. *)
From Verif Require Import Base M_Node4D M_Str M_Mem S_Mem M_Cfg M_Pkt M_Dupe M_Echo.

(** the same system; an unknown zone (0) is not compared *)
Definition sameaddr (a b : node4d) : Prop :=
  net a = net b /\ node a = node b /\ point a = point b /\ (zone a = zone b \/ zone a = 0 \/ zone b = 0).
Definition sameaddrb (a b : node4d) : bool :=
  (net a =? net b) && (node a =? node b) && (point a =? point b) && ((zone a =? zone b) || (zone a =? 0) || (zone b =? 0)).

(** the area a message belongs to: the first one with its tag, ignoring case *)
Definition area_of (areas : list area) (tag : list Z) (a : area) : Prop :=
  exists pre post, areas = pre ++ a :: post /\ streqi (ar_tag a) tag = true /\ Forall (fun x => streqi (ar_tag x) tag = false) pre.
Definition no_area (areas : list area) (tag : list Z) : Prop := Forall (fun x => streqi (ar_tag x) tag = false) areas.

Definition confirmed (a : area) : Prop := flag (ar_flags a) AREA_UNCONFIRMED = false.
(** messages written on this system, or security switched off by the operator *)
Definition waived (mm : memmsg) : Prop :=
  flag (Flags mm) MMFLAG_EXPORTED = true \/ flag (Flags mm) MMFLAG_NOSECURITY = true.
(** the sender is linked to the area and may write there *)
Definition may_write (cfg : ecfg) (a : area) (sender : node4d) : Prop :=
  exists t, In t (ar_tn a) /\ sameaddr (tnnode cfg t) sender /\ flag (tn_flags t) TOSSNODE_READONLY = false.

(** linked for writing; the operator linked the sender once *)
Definition accepted (cfg : ecfg) (a : area) (mm : memmsg) : Prop :=
  confirmed a /\ (waived mm \/ (may_write cfg a (PktOrig mm) /\
    forall t, In t (ar_tn a) -> sameaddr (tnnode cfg t) (PktOrig mm) -> flag (tn_flags t) TOSSNODE_READONLY = false)).

(** where bad messages go, and what is stored there *)
Definition kept (mm m : memmsg) : Prop :=
  From m = From mm /\ To m = To mm /\ Subject m = Subject mm /\ DateTime m = DateTime mm /\ exists info, mmtext m = info ++ mmtext mm.
Definition bad_import (areas : list area) (mm : memmsg) (evs : list ev) : Prop :=
  exists b m, In b areas /\ ar_type b = AREATYPE_BAD /\ evs = [EvImport (ar_tag b) m] /\ kept mm m.
Definition bad_events (areas : list area) (mm : memmsg) (evs : list ev) : Prop := evs = [] \/ bad_import areas mm evs.

(** nodes to which messages are written *)
Fixpoint sends (l : list ev) : list nat :=
  match l with
  | [] => []
  | EvSend i _ :: r => i :: sends r
  | _ :: r => sends r
  end.
(** the imports *)
Fixpoint imports (l : list ev) : list (list Z) :=
  match l with
  | [] => []
  | EvImport tag _ :: r => tag :: imports r
  | _ :: r => imports r
  end.

(** the SEEN-BY entries a message arrives with; those of another zone do not count *)
Definition incoming (a : area) (mm : memmsg) : list node2d :=
  if zone (ak_node (ar_aka a)) =? zone (PktOrig mm) then entries (SeenBy mm) else [].
(** a link is already listed there *)
Definition listed (cfg : ecfg) (a : area) (mm : memmsg) (t : tossnode) : bool :=
  (zone (tnnode cfg t) =? zone (ak_node (ar_aka a))) && (point (tnnode cfg t) =? 0) &&
  existsb (n2eqb (net (tnnode cfg t), node (tnnode cfg t))) (incoming a mm).
(** a link that does not want to be sent anything *)
Definition silent (cfg : ecfg) (t : tossnode) : bool :=
  flag (cn_flags (getcn cfg (tn_node t))) NODE_PASSIVE || flag (tn_flags t) TOSSNODE_WRITEONLY.
(** the links that are to get a message *)
Definition wanted (cfg : ecfg) (a : area) (mm : memmsg) (t : tossnode) : bool :=
  negb (sameaddrb (PktOrig mm) (tnnode cfg t)) && negb (silent cfg t) &&
  negb (flag (ec_flags cfg) CFG_CHECKSEENBY && listed cfg a mm t).

(** filters that let a message pass unchanged and send nothing *)
Definition passes (flt : memmsg -> option (memmsg * list ev)) : Prop :=
  forall m, exists fev, flt m = Some (m, fev) /\ sends fev = [] /\ imports fev = [].

(** the duplicate check is made for this message *)
Definition dupechecked (cfg : ecfg) (a : area) (mm : memmsg) : Prop :=
  ec_dupemode cfg <> DUPE_IGNORE /\ flag (Flags mm) MMFLAG_TOSSED = true /\ flag (ar_flags a) AREA_IGNOREDUPES = false.
Definition not_dupe (cfg : ecfg) (st : est) (a : area) (mm : memmsg) : Prop :=
  ~ dupechecked cfg a mm \/ exists db, CheckDupe (ec_dupesize cfg) (es_dupes st) (MSGID mm) (Area mm) = Some (false, db).

(** ** What is written into the forwarded copies *)

(** the SEEN-BY lines [text], read into an empty message, give the set [s] *)
Definition sb_reads (text : list Z) (s : node2d -> Prop) : Prop :=
  exists lines, text = concat (map (fun l => l ++ [13]) lines) /\
    Forall (fun l => (length l <= 77)%nat /\ is_seenby_line l) lines /\
    forall mm, Area mm <> [] -> SeenBy mm = [] -> exists mm', addlines mm (map (fun l => l ++ [13]) lines) = Some mm' /\
      forall x, In x (entries (SeenBy mm')) <-> s x.
(** a system without point, as an entry *)
Definition entry_of (n : node4d) (x : node2d) : Prop := point n = 0 /\ x = (net n, node n).
(** the full list: what came in and the links in the own zone, without what is to be
    removed, and with what is to be added and the own address *)
Definition sb_full (cfg : ecfg) (a : area) (mm : memmsg) (x : node2d) : Prop :=
  x <> (0, 0) /\
  ((In x (incoming a mm) \/ exists t, In t (ar_tn a) /\ silent cfg t = false /\
      zone (tnnode cfg t) = zone (ak_node (ar_aka a)) /\ entry_of (tnnode cfg t) x) /\
   (forall p, In p (ak_rem (ar_aka a)) -> ~ matches2d p x) \/
   (exists n, In n (ak_add (ar_aka a)) /\ x = (net n, node n)) \/ entry_of (ak_node (ar_aka a)) x).
(** the short list *)
Definition sb_tiny (cn : cnode) (a : area) (x : node2d) : Prop :=
  x <> (0, 0) /\ (entry_of (cn_node cn) x \/ entry_of (ak_node (ar_aka a)) x).

(** the PATH: words net/node or net/node.point, the net left out when it is the one of
    the word before *)
Definition paddr : Type := Z * Z * Z.
Definition ptext (p : Z) : list Z := if p =? 0 then [] else lit "." ++ dec p.
Inductive pathseq : Z -> list paddr -> list (list Z) -> Prop :=
| ps_nil last : pathseq last [] []
| ps_short n f p r ts : pathseq n r ts -> pathseq n ((n, f, p) :: r) ((dec f ++ ptext p) :: ts)
| ps_full last n f p r ts : pathseq n r ts -> pathseq last ((n, f, p) :: r) ((dec n ++ lit "/" ++ dec f ++ ptext p) :: ts).
Fixpoint words (ts : list (list Z)) : list Z :=
  match ts with
  | [] => []
  | t :: r => match r with [] => t | _ => t ++ lit " " ++ words r end
  end.
Definition pathline (l : list Z) (es : list paddr) : Prop := exists ts, pathseq 0 es ts /\ l = words ts /\ ts <> [].
Definition paddr_ok (x : paddr) : Prop := let '(n, f, p) := x in 1 <= n < 65536 /\ is_u16 f /\ is_u16 p.
Definition own_paddr (n : node4d) : paddr := (net n, node n, point n).

(** the SEEN-BY entries in the copy for a node *)
Definition sb_copy (cfg : ecfg) (a : area) (mm : memmsg) (cn : cnode) (x : node2d) : Prop :=
  if negb (zone (cn_node cn) =? zone (ak_node (ar_aka a))) || flag (cn_flags cn) NODE_TINYSEENBY then sb_tiny cn a x
  else if flag (cn_flags cn) NODE_NOSEENBY then False
  else sb_full cfg a mm x.
(** the copy for a node: message header, AREA line, text, SEEN-BY lines, PATH lines *)
Definition copy_for (cfg : ecfg) (a : area) (mm : memmsg) (path : list (list Z)) (cn : cnode) (data : list Z) : Prop :=
  exists sbtext,
    data = le16 2 ++ le16 (node (echo_from cn (ar_aka a))) ++ le16 (node (cn_node cn)) ++
           le16 (net (echo_from cn (ar_aka a))) ++ le16 (net (cn_node cn)) ++ le16 (Attr mm) ++ le16 (Cost mm) ++
           DateTime mm ++ [0] ++ To mm ++ [0] ++ From mm ++ [0] ++ Subject mm ++ [0] ++
           lit "AREA:" ++ Area mm ++ [13] ++ mmtext mm ++ sbtext ++
           concat (map (fun l => (1 :: lit "PATH: " ++ l) ++ [13]) (filter (fun l => negb (streq l [])) path)) ++ [0] /\
    sb_reads sbtext (sb_copy cfg a mm cn).

(** a history of messages *)
Fixpoint hrun (cfg : ecfg) (flt : memmsg -> option (memmsg * list ev)) (st : est) (ms : list memmsg) : option est :=
  match ms with
  | [] => Some st
  | m :: r => match HandleEchomail cfg flt st m with Some (st', _) => hrun cfg flt st' r | None => None end
  end.
(** what identifies a message *)
Definition msgkey (m : memmsg) : list Z * list Z := (MSGID m, Area m).
