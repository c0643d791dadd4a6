(** The commands for one area or one node: specification. *)
From Verif Require Import Base M_Node4D S_Node4D M_Str M_Mem M_Cfg M_Echo M_Areafix M_Scan S_Scan S_Echo S_AddArea M_Cmd.

(** the first node whose address this text is *)
Definition isnode_text (text : list Z) (c : cnode) : Prop :=
  exists t, addrtext_ok t /\ text = render t /\ sameaddr (cn_node c) (denote t (N4 0 0 0 0)).
Definition node_text (nodes : list cnode) (text : list Z) (k : nat) : Prop := firstpos (isnode_text text) nodes k.

(** the messages about a removed area for a linked node: one to its AreaFix if that is wanted, one
    to the sysop if that is wanted and it is not the node the area came from *)
Definition farewell (nodes : list anode) (tag : list Z) (t : tossnode) (es : list afev) : Prop :=
  exists n e1 e2, nth (tn_node t) nodes an0 = n /\ es = e1 ++ e2 /\
    (flag (cn_flags (an_cn n)) 128 = true /\ e1 = [FRemoved (tn_node t) tag] \/ flag (cn_flags (an_cn n)) 128 = false /\ e1 = []) /\
    (flag (cn_flags (an_cn n)) 256 = true /\ flag (tn_flags t) TOSSNODE_FEED = false /\ e2 = [FNotice (tn_node t) tag] \/
     (flag (cn_flags (an_cn n)) 256 = false \/ flag (tn_flags t) TOSSNODE_FEED = true) /\ e2 = []).

(** an echomail area with this name *)
Definition echo_named (name : list Z) (a : farea) : Prop := ar_type (fa_ar a) = AREATYPE_ECHOMAIL /\ streqi name (ar_tag (fa_ar a)) = true.
