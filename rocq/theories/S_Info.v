(** What a node is told about its configuration: specification. *)
From Coq Require Import Sorted.
From Verif Require Import Base M_Node4D S_Node4D M_Str M_Mem M_Cfg M_AfList S_AfList.

(** the switches of a node, by bit, with what is said about them *)
Definition switches : list (Z * list Z) :=
  [(1, lit " * You are passive and will not receive any echomail messages");
   (2, lit " * You receive messages with tiny SEEN-BY lines");
   (3, lit " * You receive messages without SEEN-BY lines");
   (4, lit " * You may do forward-requests");
   (5, lit " * You will receive notifications");
   (6, lit " * Netmail to you will be packed");
   (0, lit " * New areas from you will be auto-added")].
(** the groups with these properties in the order of the alphabet *)
Definition groups_with (P : Z -> Prop) (gs : list Z) : Prop :=
  StronglySorted Z.lt gs /\ forall g, In g gs <-> 65 <= g <= 90 /\ P g.
Definition nameof (names : list (list Z)) (g : Z) : list Z := nth (Z.to_nat (g - 65)) names [].

(** the text for node [c] *)
Definition infotext (names : list (list Z)) (packer : option (list Z)) (c : cnode) (ls : list (list Z)) : Prop :=
  exists full ro,
    groups_with (fun g => In g (cn_groups c) /\ ~ In g (cn_rogroups c)) full /\
    groups_with (fun g => In g (cn_rogroups c)) ro /\
    ls = [lit "Configuration for " ++ adr (cn_node c) ++ lit ":"; [];
          lit "           Sysop: " ++ cn_sysop c; lit "Packet  password: " ++ cn_pw c; lit "Areafix password: " ++ cn_afpw c;
          lit "          Packer: " ++ match packer with None => lit "No packer" | Some n => n end; []] ++
         map snd (filter (fun s => Z.testbit (cn_flags c) (fst s)) switches) ++
         [[]; lit "You have full access to these groups:"; []] ++
         map (fun g => match nameof names g with [] => [g] | n => [g] ++ lit ": " ++ n end) full ++
         [[]; lit "You have read-only access to these groups:"; []] ++
         map (fun g => [g] ++ lit ": " ++ nameof names g) ro.
(** lengths of the fields of the configuration *)
Definition node_fits (names : list (list Z)) (packer : option (list Z)) (c : cnode) : Prop :=
  valid4d (cn_node c) /\ (length (cn_sysop c) <= 35)%nat /\ (length (cn_pw c) <= 8)%nat /\ (length (cn_afpw c) <= 39)%nat /\
  Forall (fun n => (length n <= 79)%nat) names /\ match packer with None => True | Some n => (length n <= 9)%nat end.
