(** Specification of AreaFix requests, in terms of the configuration before and after. *)
From Verif Require Import Base M_Node4D M_Str S_Str M_Mem M_Cfg M_Echo S_Echo M_Areafix.

(** The first word of a subject, of which 99 characters are looked at: it may be quoted,
    and a backslash makes the next character literal (see [token]). *)
Inductive firstword : list Z -> list Z -> Prop :=
| fw_plain p s t rest : Forall (fun c => c = 32 \/ c = 9) p -> (forall c r, s = c :: r -> c <> 32 /\ c <> 9 /\ c <> 34) ->
    token stop_plain s t rest -> firstword (p ++ s) (firstn 99 t)
| fw_quoted p s t rest : Forall (fun c => c = 32 \/ c = 9) p ->
    token stop_quoted s t rest -> firstword (p ++ 34 :: s) (firstn 99 t).

(** Equal ignoring the case of letters. *)
Definition samei (a b : list Z) : Prop := map tolower a = map tolower b.

(** Node number [i] is the first with the address of the sender, and the subject gives its
    AreaFix password. *)
Definition sender (nodes : list anode) (mm : memmsg) (i : nat) : Prop :=
  exists n, nth_error nodes i = Some n /\ sameaddr (cn_node (an_cn n)) (OrigNode mm) /\
    forall j m, (j < i)%nat -> nth_error nodes j = Some m -> ~ sameaddr (cn_node (an_cn m)) (OrigNode mm).
Definition authorised (nodes : list anode) (mm : memmsg) (i : nat) : Prop :=
  sender nodes mm i /\ exists n w, nth_error nodes i = Some n /\ firstword (Subject mm) w /\ samei w (cn_afpw (an_cn n)).

(** Rights of the node with settings [c] and number [i]. *)
Definition mayuse (c : cnode) (g : Z) : Prop := In g (cn_groups c) \/ In g (cn_rogroups c).
Definition mayattach (c : cnode) (i : nat) (a : farea) : Prop := mayuse c (ar_group (fa_ar a)) /\ ~ In i (fa_ban a).
Definition has (f bit : Z) : Prop := Z.land f bit <> 0.
Definition readonly_for (c : cnode) (a : area) : Prop := has (ar_flags a) AREA_DEFREADONLY \/ In (ar_group a) (cn_rogroups c).
(** the link the node is to get: read-only if and only if policy says so *)
Definition newlink (c : cnode) (i : nat) (a : area) (t : tossnode) : Prop :=
  tn_node t = i /\ (readonly_for c a -> tn_flags t = TOSSNODE_READONLY) /\ (~ readonly_for c a -> tn_flags t = 0).
Definition isfeed (t : tossnode) : Prop := has (tn_flags t) TOSSNODE_FEED.
Definition maydetach (a : area) (t : tossnode) : Prop := has (ar_flags a) AREA_MANDATORY -> isfeed t.

(** The links of node [i] in an area, and those of all others. *)
Definition own (i : nat) (l : list tossnode) : list tossnode := filter (fun t => Nat.eqb (tn_node t) i) l.
Definition others (i : nat) (l : list tossnode) : list tossnode := filter (fun t => negb (Nat.eqb (tn_node t) i)) l.

(** What may become of an area that is kept. Its settings stay, so do the links of the
    others; links of [i] go only if they may be given up, and a new one comes only where
    [i] may attach; a change is marked. *)
Record kept (c : cnode) (i : nat) (a a' : farea) : Prop := {
  k_tag : ar_tag (fa_ar a') = ar_tag (fa_ar a);
  k_type : ar_type (fa_ar a') = ar_type (fa_ar a);
  k_flags : ar_flags (fa_ar a') = ar_flags (fa_ar a);
  k_group : ar_group (fa_ar a') = ar_group (fa_ar a);
  k_aka : ar_aka (fa_ar a') = ar_aka (fa_ar a);
  k_mb : ar_mb (fa_ar a') = ar_mb (fa_ar a);
  k_ban : fa_ban a' = fa_ban a;
  k_others : others i (ar_tn (fa_ar a')) = others i (ar_tn (fa_ar a));
  k_own : exists gone, Forall (maydetach (fa_ar a)) gone /\
    (own i (ar_tn (fa_ar a)) = gone ++ own i (ar_tn (fa_ar a')) \/
     own i (ar_tn (fa_ar a)) = gone /\ mayattach c i a /\ exists t, newlink c i (fa_ar a) t /\ own i (ar_tn (fa_ar a')) = [t]);
  k_changed : a' = a \/ fa_changed a' = true /\ ar_type (fa_ar a) = AREATYPE_ECHOMAIL }.

(** When an area may disappear: its feed left and the configuration says that the area
    goes with it; or the configuration says that unused areas go, the area has no message
    base, [i] gave up a link that it had or could get, and no other node but possibly a
    feed is left. *)
Definition mayvanish (cfg : afcfg) (c : cnode) (i : nat) (a : farea) : Prop :=
  let l := ar_tn (fa_ar a) in
  ar_type (fa_ar a) = AREATYPE_ECHOMAIL /\
  ((has (fc_flags cfg) CFG_REMOVEWHENFEED /\ exists t, In t (own i l) /\ isfeed t) \/
   (has (fc_flags cfg) CFG_AREAFIXREMOVE /\ ar_mb (fa_ar a) = false /\
    (others i l = [] \/ exists u, others i l = [u] /\ isfeed u) /\
    ((exists t, In t (own i l) /\ maydetach (fa_ar a) t) \/ mayattach c i a /\ ~ has (ar_flags (fa_ar a)) AREA_MANDATORY))).

(** The list of areas before and after: in the same order, every area is kept or has
    vanished. *)
Inductive survive (cfg : afcfg) (c : cnode) (i : nat) : list farea -> list farea -> Prop :=
| sv_nil : survive cfg c i [] []
| sv_kept a a' l l' : kept c i a a' -> survive cfg c i l l' -> survive cfg c i (a :: l) (a' :: l')
| sv_gone a l l' : mayvanish cfg c i a -> survive cfg c i l l' -> survive cfg c i (a :: l) l'.

(** A new area: one that an uplink's list of areas for forwarded requests names, in a
    group that the node may use, and only for nodes with that privilege. *)
Definition listed (al : alist) (tag : list Z) : Prop :=
  exists ls l, al_lines al = Some ls /\ In l ls /\ samei (fword l) tag.
Definition forwarded (cfg : afcfg) (c : cnode) (a : farea) : Prop :=
  has (cn_flags c) NODE_FORWARDREQ /\ ar_type (fa_ar a) = AREATYPE_ECHOMAIL /\ fa_changed a = true /\
  exists al, In al (fc_alists cfg) /\ has (al_flags al) AREALIST_FORWARD /\ In (al_group al) (cn_groups c) /\
    ar_group (fa_ar a) = al_group al /\ listed al (ar_tag (fa_ar a)).

Definition areas_ok (cfg : afcfg) (c : cnode) (i : nat) (l l' : list farea) : Prop :=
  exists k n, l' = k ++ n /\ survive cfg c i l k /\ Forall (forwarded cfg c) n.

(** The settings of a node that a request may change: whether it is passive, its AreaFix
    password, its packer. *)
Definition sameelse (n m : anode) : Prop :=
  cn_node (an_cn m) = cn_node (an_cn n) /\ cn_pw (an_cn m) = cn_pw (an_cn n) /\
  cn_groups (an_cn m) = cn_groups (an_cn n) /\ cn_rogroups (an_cn m) = cn_rogroups (an_cn n) /\
  cn_addgroups (an_cn m) = cn_addgroups (an_cn n) /\ cn_defgroup (an_cn m) = cn_defgroup (an_cn n) /\
  Z.ldiff (cn_flags (an_cn m)) NODE_PASSIVE = Z.ldiff (cn_flags (an_cn n)) NODE_PASSIVE /\
  cn_sysop (an_cn m) = cn_sysop (an_cn n) /\ cn_pktfrom (an_cn m) = cn_pktfrom (an_cn n) /\
  cn_rafname (an_cn m) = cn_rafname (an_cn n) /\ cn_rafpw (an_cn m) = cn_rafpw (an_cn n) /\
  (m = n \/ an_changed m = true).
Definition nodes_ok (i : nat) (l l' : list anode) : Prop :=
  length l' = length l /\ (forall j, j <> i -> nth_error l' j = nth_error l j) /\
  (forall n, nth_error l i = Some n -> exists m, nth_error l' i = Some m /\ sameelse n m).

(** ** The exact effect of a line that names areas *)
(** The areas a name or pattern selects. *)
Definition selects (pat : list Z) (a : farea) : Prop := ar_type (fa_ar a) = AREATYPE_ECHOMAIL /\ fmatch pat (ar_tag (fa_ar a)).
Definition withlinks (a : farea) (l : list tossnode) : farea :=
  FA (AR (ar_tag (fa_ar a)) (ar_type (fa_ar a)) (ar_flags (fa_ar a)) (ar_group (fa_ar a)) (ar_aka (fa_ar a)) l (ar_mb (fa_ar a))) (fa_ban a) true.

Inductive attached (c : cnode) (i : nat) (pat : list Z) (a : farea) : farea -> Prop :=
| at_new t : selects pat a -> own i (ar_tn (fa_ar a)) = [] -> mayattach c i a -> newlink c i (fa_ar a) t ->
    attached c i pat a (withlinks a (ar_tn (fa_ar a) ++ [t]))
| at_same : ~ (selects pat a /\ own i (ar_tn (fa_ar a)) = [] /\ mayattach c i a) -> attached c i pat a a.

(** The area goes when link [t] has been given up and [l] is left. *)
Definition vanishes (cfg : afcfg) (a : area) (t : tossnode) (l : list tossnode) : Prop :=
  (has (fc_flags cfg) CFG_REMOVEWHENFEED /\ isfeed t) \/
  (has (fc_flags cfg) CFG_AREAFIXREMOVE /\ ar_mb a = false /\ (l = [] \/ exists u, l = [u] /\ isfeed u)).
Inductive detached (cfg : afcfg) (i : nat) (pat : list Z) (a : farea) : list farea -> Prop :=
| de_other : ~ selects pat a -> detached cfg i pat a [a]
| de_none : own i (ar_tn (fa_ar a)) = [] -> detached cfg i pat a [a]
| de_bound l1 t l2 : ar_tn (fa_ar a) = l1 ++ t :: l2 -> own i l1 = [] -> tn_node t = i -> ~ maydetach (fa_ar a) t -> detached cfg i pat a [a]
| de_off l1 t l2 : selects pat a -> ar_tn (fa_ar a) = l1 ++ t :: l2 -> own i l1 = [] -> tn_node t = i -> maydetach (fa_ar a) t ->
    ~ vanishes cfg (fa_ar a) t (l1 ++ l2) -> detached cfg i pat a [withlinks a (l1 ++ l2)]
| de_gone l1 t l2 : selects pat a -> ar_tn (fa_ar a) = l1 ++ t :: l2 -> own i l1 = [] -> tn_node t = i -> maydetach (fa_ar a) t ->
    vanishes cfg (fa_ar a) t (l1 ++ l2) -> detached cfg i pat a [].

(** A line: a sign, a name or pattern of printable characters, and possibly an option
    behind a comma. *)
Definition plainname (pat : list Z) : Prop := Forall (fun c => 33 <= c < 128 /\ c <> 44) pat.
Definition option_text (o : list Z) : Prop := o = [] \/ exists r, o = 44 :: r /\ ~ In 44 r.
Definition addline (pat line : list Z) : Prop :=
  plainname pat /\ exists o, option_text o /\
    (line = 43 :: pat ++ o \/ line = pat ++ o /\ exists c r, pat = c :: r /\ ~ In c [37; 43; 45; 61]).
Definition remline (pat line : list Z) : Prop := plainname pat /\ exists o, option_text o /\ line = 45 :: pat ++ o.
Definition updline (pat line : list Z) : Prop := plainname pat /\ exists o, option_text o /\ line = 61 :: pat ++ o.
Definition wild (pat : list Z) : Prop := In 42 pat \/ In 63 pat.

(** ** The lines of a message *)
Definition aline (l : list Z) : Prop := (length l < 100)%nat /\ Forall (fun c => c <> 0 /\ c <> 13 /\ c <> 10) l /\ firstn 3 l <> lit "---".
