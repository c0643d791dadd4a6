(** Model of rawSendInfo (src/crashmail/areafix.c): what a node is told about its configuration. *)
From Verif Require Import Base M_Node4D M_Str M_Mem M_Cfg M_Filter M_Echo M_Areafix M_AfList M_Cmd.

(** areafix.c:1370-1388 *)
Definition infoflags (c : cnode) : list (list Z) :=
  let o f (s : list Z) := if flag (cn_flags c) f then [s] else [] in
  o NODE_PASSIVE (lit " * You are passive and will not receive any echomail messages") ++
  o NODE_TINYSEENBY (lit " * You receive messages with tiny SEEN-BY lines") ++
  o NODE_NOSEENBY (lit " * You receive messages without SEEN-BY lines") ++
  o NODE_FORWARDREQ (lit " * You may do forward-requests") ++
  o NODE_NOTIFY (lit " * You will receive notifications") ++
  o NODE_PACKNETMAIL (lit " * Netmail to you will be packed") ++
  o NODE_AUTOADD (lit " * New areas from you will be auto-added").
(** areafix.c:1394, :1408: 'A' to 'Z' *)
Definition letters : list Z := map (fun k => 65 + Z.of_nat k) (seq 0 26).
(** areafix.c:1397-1401; [names]: cfg_GroupNames *)
Definition fullline (names : list (list Z)) (g : Z) : list Z :=
  match nth (Z.to_nat (g - 65)) names [] with [] => [g] | n => g :: lit ": " ++ n end.
(** areafix.c:1411-1415; the condition is the address of an array and so always true *)
Definition roline (names : list (list Z)) (g : Z) : list Z := g :: lit ": " ++ nth (Z.to_nat (g - 65)) names [].
(** areafix.c:1349-1417: the lines that are given to afAddLine; [packer]: the name of the packer *)
Definition infolines (names : list (list Z)) (packer : option (list Z)) (c : cnode) : list (list Z) :=
  [lit "Configuration for " ++ print4d (cn_node c) ++ lit ":"; [];
   lit "           Sysop: " ++ cn_sysop c;
   lit "Packet  password: " ++ cn_pw c;
   lit "Areafix password: " ++ cn_afpw c;
   lit "          Packer: " ++ match packer with None => lit "No packer" | Some n => n end; []] ++
  infoflags c ++
  [[]; lit "You have full access to these groups:"; []] ++
  map (fullline names) (filter (fun g => CheckFlags g (cn_groups c) && negb (CheckFlags g (cn_rogroups c))) letters) ++
  [[]; lit "You have read-only access to these groups:"; []] ++
  map (roline names) (filter (fun g => CheckFlags g (cn_rogroups c)) letters).
(** areafix.c:1336-1421 rawSendInfo *)
Definition rawSendInfo (flags maxlines : Z) (handle : list memmsg -> memmsg -> memmsg) (date : nat -> list Z) (sysop : list Z) (names : list (list Z)) (packer : option (list Z))
    (from : node4d) (toname : list Z) (c : cnode) : option (list memmsg) :=
  reply flags maxlines handle date sysop from toname (cn_node c) (lit "AreaFix configuration info") (infolines names packer c).
