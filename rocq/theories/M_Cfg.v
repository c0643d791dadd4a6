(** Model of the configuration data structures of src/crashmail/config.h, as far as the
    modelled functions read them. Pointers to a ConfigNode are indices into the list of
    nodes. *)
From Verif Require Import Base M_Node4D M_Pat.

(** a flag test: flags & mask *)
Definition flag (flags mask : Z) : bool := negb (Z.land flags mask =? 0).

(** config.h:8-33 CFG_ flags *)
Definition CFG_CHECKSEENBY := 1.
Definition CFG_CHECKPKTDEST := 2.
Definition CFG_FORCEINTL := 8.
Definition CFG_NOROUTE := 16.
Definition CFG_PATH3D := 32.
Definition CFG_IMPORTSEENBY := 64.
Definition CFG_IMPORTEMPTYNETMAIL := 128.
Definition CFG_BOUNCEPOINTS := 256.
Definition CFG_ANSWERRECEIPT := 512.
Definition CFG_ANSWERAUDIT := 1024.
Definition CFG_NODIRECTATTACH := 2048.
Definition CFG_IMPORTAREAFIX := 4096.
Definition CFG_AREAFIXREMOVE := 8192.
Definition CFG_ADDTID := 65536.
Definition CFG_ALLOWRESCAN := 262144.
Definition CFG_FORWARDPASSTHRU := 524288.
Definition CFG_BOUNCEHEADERONLY := 2097152.
Definition CFG_REMOVEWHENFEED := 4194304.

(** config.h:137-148 NODE_ flags *)
Definition NODE_AUTOADD := 1.
Definition NODE_PASSIVE := 2.
Definition NODE_TINYSEENBY := 4.
Definition NODE_NOSEENBY := 8.
Definition NODE_FORWARDREQ := 16.
Definition NODE_PACKNETMAIL := 64.
Definition NODE_PKTFROM := 512.
Definition NODE_NONETMAILPASSWORD := 2048.

(** config.h:57-68 *)
Definition AREA_UNCONFIRMED := 1.
Definition AREA_MANDATORY := 2.
Definition AREA_DEFREADONLY := 4.
Definition AREA_IGNOREDUPES := 8.
Definition AREA_IGNORESEENBY := 16.
Definition AREATYPE_NETMAIL := 1.
Definition AREATYPE_ECHOMAIL := 2.
Definition AREATYPE_DEFAULT := 3.
Definition AREATYPE_BAD := 4.
Definition AREATYPE_LOCAL := 5.
Definition AREATYPE_DELETED := 6.

(** config.h:114-116 *)
Definition TOSSNODE_READONLY := 1.
Definition TOSSNODE_WRITEONLY := 2.
Definition TOSSNODE_FEED := 4.

(** config.h:232-236 *)
Definition PKTS_ECHOMAIL := 0.
Definition PKTS_HOLD := 1.
Definition PKTS_NORMAL := 2.
Definition PKTS_DIRECT := 3.
Definition PKTS_CRASH := 4.

(** struct Aka (config.h:105-112) *)
Record aka := AKA { ak_node : node4d; ak_domain : list Z; ak_add : list node4d; ak_rem : list np2d }.

(** struct ConfigNode (config.h:155-197). Not modelled: Packer, EchomailPri, RemoteAFList,
    LastArcName and the statistics. IsInSeenBy is kept outside (see M_Echo). *)
Record cnode := CN {
  cn_node : node4d; cn_pw : list Z; cn_afpw : list Z;
  cn_groups : list Z; cn_rogroups : list Z; cn_addgroups : list Z; cn_defgroup : Z;
  cn_flags : Z; cn_sysop : list Z; cn_pktfrom : node4d;
  cn_rafname : list Z; cn_rafpw : list Z }.
