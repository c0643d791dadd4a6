(** Specification of netmail handling. *)
From Verif Require Import Base M_Node4D S_Node4D M_Pat S_Pat M_Str M_Mem S_Mem M_Cfg M_Pkt M_Dupe M_Echo S_Echo M_Expr M_Filter M_Net.

(** ** Addressing kludges *)
(** the lines INTL, FMPT and TOPT *)
Definition is_addr_kludge (l : list Z) : Prop :=
  exists k, In k [lit "INTL"; lit "FMPT"; lit "TOPT"] /\ starts_with (1 :: k) l.
(** what a reader knows of an address from the message header alone *)
Definition header_addr (z : Z) (n : node4d) : node4d := N4 z (net n) (node n) 0.

(** ** Routing *)
Definition first_route (nl : nodelist) (rs : list route) (d : node4d) (r : route) : Prop :=
  exists l1 l2, rs = l1 ++ r :: l2 /\ patmatch nl (rt_pat r) d /\ Forall (fun x => ~ patmatch nl (rt_pat x) d) l1.
Definition no_route (nl : nodelist) (rs : list route) (d : node4d) : Prop :=
  Forall (fun x => ~ patmatch nl (rt_pat x) d) rs.

(** an address of this system *)
Definition own_address (cfg : ncfg) (d : node4d) : Prop := exists a, In a (nc_akas cfg) /\ sameaddr d (ak_node a).
(** netmail to this address is kept in this netmail area *)
Definition keeps_for (a : narea) (d : node4d) : Prop :=
  ar_type (na_area a) = AREATYPE_NETMAIL /\
  (sameaddr (ak_node (ar_aka (na_area a))) d \/ exists n, In n (na_import a) /\ sameaddr n d).
(** netmail to this address is not for this system *)
Definition elsewhere (cfg : ncfg) (d : node4d) : Prop :=
  ~ own_address cfg d /\ cflag cfg CFG_NOROUTE = false /\ forall a, In a (nc_areas cfg) -> ~ keeps_for a d.

(** the priority asked for: HOLD and CRASH count only for messages written here *)
Inductive priority (cfg : ncfg) (mm : memmsg) : Z -> Prop :=
| pr_hold : flag (Flags mm) MMFLAG_TOSSED = false -> flag (Attr mm) FLAG_HOLD = true -> priority cfg mm PKTS_HOLD
| pr_crash : flag (Flags mm) MMFLAG_TOSSED = false -> flag (Attr mm) FLAG_HOLD = false -> flag (Attr mm) FLAG_CRASH = true ->
    priority cfg mm PKTS_CRASH
| pr_direct : (flag (Flags mm) MMFLAG_TOSSED = true \/ flag (Attr mm) FLAG_HOLD = false /\ flag (Attr mm) FLAG_CRASH = false) ->
    flag (Attr mm) FLAG_FILEATTACH = true -> cflag cfg CFG_NODIRECTATTACH = false -> priority cfg mm PKTS_DIRECT
| pr_normal : (flag (Flags mm) MMFLAG_TOSSED = true \/ flag (Attr mm) FLAG_HOLD = false /\ flag (Attr mm) FLAG_CRASH = false) ->
    (flag (Attr mm) FLAG_FILEATTACH = false \/ cflag cfg CFG_NODIRECTATTACH = true) -> priority cfg mm PKTS_NORMAL.
(** a CHANGE statement applies to mail of this priority to this node *)
Definition change_applies (nl : nodelist) (d : node4d) (p : Z) (c : change) : Prop :=
  patmatch nl (ch_pat c) d /\
  (p = PKTS_NORMAL /\ ch_normal c = true \/ p = PKTS_CRASH /\ ch_crash c = true \/
   p = PKTS_DIRECT /\ ch_direct c = true \/ p = PKTS_HOLD /\ ch_hold c = true).
(** the last one that applies decides *)
Definition changed (nl : nodelist) (cs : list change) (d : node4d) (p p' : Z) : Prop :=
  (exists l1 c l2, cs = l1 ++ c :: l2 /\ change_applies nl d p c /\ Forall (fun x => ~ change_applies nl d p x) l2 /\ p' = ch_pri c) \/
  (Forall (fun x => ~ change_applies nl d p x) cs /\ p' = p).
(** the system a message goes to: the routing template, except for mail with another
    priority than NORMAL; DIRECT and CRASH mail goes to the boss node *)
Definition next_system (cfg : ncfg) (r : route) (mm : memmsg) (dest : node4d) (p' : Z) : Prop :=
  exists p d0, priority cfg mm p /\
    d0 = (if p =? PKTS_NORMAL then ExpandNodePat (nlist cfg) (rt_dest r) (DestNode mm) else DestNode mm) /\
    changed (nlist cfg) (nc_changes cfg) d0 p p' /\
    dest = (if (p' =? PKTS_DIRECT) || (p' =? PKTS_CRASH) then N4 (zone d0) (net d0) (node d0) 0 else d0).

(** ** Bounces *)
Definition boss (d : node4d) : node4d := N4 (zone d) (net d) (node d) 0.
Definition unlisted (cfg : ncfg) (d : node4d) : Prop :=
  nl_has (nc_nl cfg) = true /\ (exists p, In p (nc_bounce cfg) /\ patmatch (nlist cfg) p d) /\ nl_check (nc_nl cfg) (boss d) = 0.
Definition unknown_point (cfg : ncfg) (d : node4d) : Prop :=
  cflag cfg CFG_BOUNCEPOINTS = true /\
  (exists a, In a (nc_akas cfg) /\ sameaddr (ak_node a) (boss d) /\ point (ak_node a) = 0) /\
  forall c, In c (nc_nodes cfg) -> ~ sameaddr (cn_node c) d.
Definition attach_forbidden (cfg : ncfg) (mm : memmsg) : Prop :=
  flag (Attr mm) FLAG_FILEATTACH = true /\ flag (Flags mm) MMFLAG_EXPORTED = false /\
  forall p, In p (nc_attach cfg) -> ~ patmatch (nlist cfg) p (DestNode mm).
Definition must_bounce (cfg : ncfg) (mm : memmsg) : Prop :=
  unlisted cfg (DestNode mm) \/ unknown_point cfg (DestNode mm) \/ attach_forbidden cfg mm.

(** a netmail from this tosser's input: its zones are known, its destination is a valid
    address, it is not marked as deleted, its chunks fit, no filter is configured *)
Definition plain_input (cfg : ncfg) (mm : memmsg) : Prop :=
  Area mm = [] /\ zone (DestNode mm) <> 0 /\ zone (OrigNode mm) <> 0 /\ valid4d (DestNode mm) /\ valid4d (OrigNode mm) /\
  flag (Flags mm) MMFLAG_KILL = false /\ Forall (fun c => Z.of_nat (length c) <= 10000) (TextChunks mm).
Definition cfg_sane (cfg : ncfg) : Prop :=
  nl_ok (nlist cfg) /\ cstring (nc_stamp cfg) /\ (exists t, nc_tid cfg = SOH ++ lit "TID: " ++ t) /\
  Forall (fun r => valid4d (ak_node (rt_aka r))) (nc_routes cfg).
(** the text, with a CR behind the last line if there is none *)
Definition with_cr (t : list Z) : list Z :=
  match rev t with c :: _ => if (c =? 13) || (c =? 0) then t else t ++ [13] | [] => t end.

(** ** Messages created by the program *)
(** asks neither for a receipt nor for an audit *)
Definition asks_nothing (m : memmsg) : Prop := flag (Attr m) FLAG_RREQ = false /\ flag (Attr m) FLAG_AUDIT = false.
(** marked as created automatically *)
Definition marked (m : memmsg) : Prop := flag (Flags m) MMFLAG_AUTOGEN = true /\ asks_nothing m.
Definition created (e : nev) : Prop := exists m, e = NvNew m.
(** AreaFix's replies are marked (areafix.c:765, :805, :1454, :1483, :1582) *)
Definition areafix_marks (cfg : ncfg) : Prop := forall m, Forall marked (nc_areafix cfg m).
(** the same message on its way: addresses, names, subject and date unchanged; of the
    attributes PVT, FILEATTACH, RREQ, IRRR and AUDIT are kept, CRASH and HOLD only if the
    message was not tossed, and no others *)
Definition sent_as (mm m : memmsg) : Prop :=
  Area m = [] /\ OrigNode m = OrigNode mm /\ DestNode m = DestNode mm /\ From m = From mm /\ To m = To mm /\
  Subject m = Subject mm /\ DateTime m = DateTime mm /\ MSGID m = MSGID mm /\ REPLY m = REPLY mm /\
  (forall f, In f [FLAG_PVT; FLAG_FILEATTACH; FLAG_RREQ; FLAG_IRRR; FLAG_AUDIT] -> flag (Attr m) f = flag (Attr mm) f) /\
  (forall f, In f [FLAG_CRASH; FLAG_HOLD] -> flag (Attr m) f = flag (Attr mm) f && negb (flag (Flags mm) MMFLAG_TOSSED)) /\
  Z.ldiff (Attr m) (FLAG_PVT + FLAG_CRASH + FLAG_FILEATTACH + FLAG_HOLD + FLAG_RREQ + FLAG_IRRR + FLAG_AUDIT) = 0.
(** one import into a BAD area or nothing *)
Definition bad_only (cfg : ncfg) (evs : list nev) : Prop :=
  evs = [] \/ exists b x, In b (nc_areas cfg) /\ ar_type (na_area b) = AREATYPE_BAD /\ evs = [NvImport (ar_tag (na_area b)) x].
(** a message of the program to the writer of [mm] *)
Definition answer_to (cfg : ncfg) (mm a : memmsg) : Prop :=
  Area a = [] /\ DestNode a = OrigNode mm /\ To a = From mm /\ From a = nc_sysop cfg /\ DateTime a = nc_now cfg.
(** control characters are shown as @ in a bounced text *)
Definition quoted (t : list Z) : list Z := map (fun c => if c =? 1 then 64 else c) t.
(** the report of a possible loop is wanted in the BAD area *)
Definition loop_reports (cfg : ncfg) : Prop := nc_loopmode cfg = LOOP_LOGBAD.
