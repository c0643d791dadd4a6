(** The answers of AreaFix: specification. *)
From Verif Require Import Base M_Node4D S_Node4D M_Str M_Mem M_Cfg M_Pkt M_Echo S_Echo M_Areafix S_Areafix.

(** the answer to a command: one line with the command and the text behind 31 columns, or two lines if
    the command is too long for that *)
Definition answer_to (buf r : list Z) (ls : list (list Z)) : Prop :=
  ((length buf <= 30)%nat /\ exists k, (length buf + k = 31)%nat /\ ls = [buf ++ repeat 32 k ++ r]) \/
  ((30 < length buf)%nat /\ ls = [buf; repeat 32 31 ++ r]).
(** for a pattern, one line about each area *)
Definition said (w : bool) (buf line r : list Z) (ls : list (list Z)) : Prop := if w then ls = [line] else answer_to buf r ls.

Definition names (cmd : afcmd) (pat line : list Z) : Prop :=
  match cmd with CAdd => addline pat line | CRemove => remline pat line | CUpdate => updline pat line end.
Definition linked (i : nat) (a : farea) : Prop := own i (ar_tn (fa_ar a)) <> [].
Definition tagof (a : farea) : list Z := ar_tag (fa_ar a).

(** what is done to an area and what is said about it *)
Inductive tells (c : cnode) (i : nat) (w : bool) (buf : list Z) (a : farea) : afcmd -> farea -> list (list Z) -> Prop :=
| t_attached ls : ~ linked i a -> mayattach c i a -> ~ readonly_for c (fa_ar a) ->
    said w buf (lit "   Attached to " ++ tagof a) (lit "Attached") ls -> tells c i w buf a CAdd (withlinks a (ar_tn (fa_ar a) ++ [TN i 0])) ls
| t_readonly ls : ~ linked i a -> mayattach c i a -> readonly_for c (fa_ar a) ->
    said w buf (lit "   Attached to " ++ tagof a ++ lit " as read-only") (lit "Attached as read-only") ls ->
    tells c i w buf a CAdd (withlinks a (ar_tn (fa_ar a) ++ [TN i TOSSNODE_READONLY])) ls
| t_already ls : linked i a -> said w buf (lit "   You are already attached to " ++ tagof a) (lit "You are already attached to that area") ls -> tells c i w buf a CAdd a ls
| t_banned ls : ~ linked i a -> mayuse c (ar_group (fa_ar a)) -> In i (fa_ban a) ->
    said w buf (lit "   You have been banned from " ++ tagof a) (lit "You have been banned from that area") ls -> tells c i w buf a CAdd a ls
| t_closed ls : ~ linked i a -> ~ mayuse c (ar_group (fa_ar a)) ->
    (if w then ls = [] else answer_to buf (lit "You don't have access to that area") ls) -> tells c i w buf a CAdd a ls
| t_detached a' l1 t l2 ls : ar_tn (fa_ar a) = l1 ++ t :: l2 -> own i l1 = [] -> tn_node t = i -> maydetach (fa_ar a) t ->
    ar_tag (fa_ar a') = tagof a -> ar_tn (fa_ar a') = l1 ++ l2 ->
    said w buf (lit "   Detached from " ++ tagof a) (lit "Detached") ls -> tells c i w buf a CRemove a' ls
| t_bound l1 t l2 ls : ar_tn (fa_ar a) = l1 ++ t :: l2 -> own i l1 = [] -> tn_node t = i -> ~ maydetach (fa_ar a) t ->
    said w buf (lit "   You are not allowed to detach from " ++ tagof a) (lit "You are not allowed to detach from that area") ls -> tells c i w buf a CRemove a ls
| t_notlinked ls : ~ linked i a -> (if w then ls = [] else answer_to buf (lit "You are not attached to that area") ls) -> tells c i w buf a CRemove a ls
| t_update ls : linked i a -> said w buf (lit "   Nothing to do with " ++ tagof a) (lit "Will rescan area") ls -> tells c i w buf a CUpdate a ls
| t_noupdate : ~ linked i a -> tells c i w buf a CUpdate a [].
Definition outcome (c : cnode) (i : nat) (w : bool) (buf pat : list Z) (cmd : afcmd) (a : farea) (x : farea * list (list Z)) : Prop :=
  (selects pat a /\ tells c i w buf a cmd (fst x) (snd x)) \/ (~ selects pat a /\ x = (a, [])).

(** the full address *)
Definition full (n : node4d) : list Z := dec (zone n) ++ [58] ++ dec (net n) ++ [47] ++ dec (node n) ++ [46] ++ dec (point n).

(** what is done to the settings of the node and what is said about it *)
Definition changes : list (list Z) :=
  [lit "Your system is marked as passive"; lit "Your system is active again"; lit "AreaFix password changed"; lit "Packed changed"].
Definition settled (n n' : anode) (r : list Z) : Prop :=
  let c := an_cn n in let c' := an_cn n' in
  (r = lit "Your system is marked as passive" -> ~ has (cn_flags c) NODE_PASSIVE /\ has (cn_flags c') NODE_PASSIVE) /\
  (r = lit "Your system is active again" -> has (cn_flags c) NODE_PASSIVE /\ ~ has (cn_flags c') NODE_PASSIVE) /\
  (~ In r changes -> n' = n) /\ (r <> lit "AreaFix password changed" -> cn_afpw c' = cn_afpw c) /\
  (r <> lit "Packed changed" -> an_packer n' = an_packer n) /\ (In r changes -> an_changed n' = true).
(** a name or command no longer than the program accepts *)
Definition config_fits (cfg : afcfg) (s : afst) : Prop :=
  Forall (fun a => (length (tagof a) <= 79)%nat) (fs_areas s) /\ Forall (fun p => (length (fst p) <= 9)%nat) (fc_packers cfg) /\
  Forall (fun n => valid4d (cn_node (an_cn n))) (fs_nodes s).

(** a line that reports a rescan *)
Definition rescan_line (x : list Z) : list Z := repeat 32 31 ++ lit "Rescanned " ++ x.

(** the lines of a message are carried out one after the other, each answered as it is carried out;
    the flag: whether any line asked for something *)
Inductive dialogue (step : list Z -> afst -> afst -> Prop) (ans : list Z -> afst -> list (list Z) -> bool -> Prop) :
    list (list Z) -> afst -> afst -> list (list Z) -> bool -> Prop :=
| d_end s : dialogue step ans [] s s [] false
| d_line l r s s1 s2 t b ts bs : step l s s1 -> ans l s t b -> dialogue step ans r s1 s2 ts bs -> dialogue step ans (l :: r) s s2 (t ++ ts) (b || bs).
