(** Specification of a toss run that may be interrupted. *)
From Verif Require Import Base M_Node4D S_Node4D M_Str M_Mem M_Cfg M_Pkt M_Fs M_Out S_Out M_Toss.

(** A file lies directly in a directory. *)
Definition indir (dir f : list Z) : Prop := exists n, f = slashed dir ++ n /\ cstring n /\ ~ In PATHCHAR n.

(** The disk when the machine stops during the steps [ops]: between two steps, or in a step
    that writes a file (which then holds anything) or runs a program (which leaves one of
    the disks [during] allows). Removing and renaming are atomic. *)
Inductive interrupted (exec : list Z -> fsys -> fsys * Z) (during : list Z -> fsys -> fsys -> Prop) : fsys -> list fop -> fsys -> Prop :=
| int_here fs ops : interrupted exec during fs ops fs
| int_put fs n c x ops : interrupted exec during fs (Put n c :: ops) (fput fs n x)
| int_exec fs cmd ops fs' : during cmd fs fs' -> interrupted exec during fs (Exec cmd :: ops) fs'
| int_next fs o ops fs' : interrupted exec during (apply exec fs o) ops fs' -> interrupted exec during fs (o :: ops) fs'.

(** the files a step names *)
Definition names (o : fop) (n : list Z) : Prop :=
  match o with Put m _ => n = m | Del m => n = m | Ren a b => n = a \/ n = b | Exec _ => False end.

(** where the outbound side keeps its files *)
Definition outbound_file (env : oenv) (n : list Z) : Prop :=
  indir (oe_packetdir env) n \/ indir (oe_packetcreate env) n \/
  exists d base x, MakeBaseName env d = Some base /\ n = base ++ lit "." ++ x.

(** the name a bad file gets *)
Definition bad_name (f f' : list Z) : Prop := exists k, 0 <= k /\ f' = f ++ lit ".bad" ++ (if k =? 0 then [] else lit "," ++ dec k).
(** the contents of a file of the inbound are there, under its name or set aside *)
Definition kept (f c : list Z) (fs : fsys) : Prop := exists f', fget fs f' = Some c /\ (f' = f \/ bad_name f f').

(** directories as the configuration file allows them *)
Definition dir_ok (d : list Z) : Prop := cstring d /\ (length d <= 99)%nat.
(** the inbound is a directory of its own, and names in it and in the directory for new
    packets fit into the buffers used *)
Record layout (env : oenv) (inbound tempdir : list Z) : Prop := {
  lay_pd : dir_ok (oe_packetdir env);
  lay_pc : cstring (oe_packetcreate env) /\ (length (oe_packetcreate env) <= 80)%nat;
  lay_tmp : dir_ok tempdir;
  lay_in : cstring inbound /\ (length inbound <= 75)%nat;
  lay_apart_tmp : forall n, indir tempdir n -> ~ indir inbound n;
  lay_apart_out : forall n, outbound_file env n -> ~ indir inbound n }.
(** external programs leave the inbound alone *)
Definition leaves_inbound (exec : list Z -> fsys -> fsys * Z) (during : list Z -> fsys -> fsys -> Prop) (inbound : list Z) : Prop :=
  forall cmd fs f, indir inbound f -> fget (fst (exec cmd fs)) f = fget fs f /\ forall fs', during cmd fs fs' -> fget fs' f = fget fs f.
(** outbound packets of the program have u32 names, one of the five types and real addresses *)
Definition opkt_fine (p : opkt) : Prop := is_u32 (op_hex p) /\ 0 <= op_type p <= 4 /\ valid4d (op_dest p).

(** ** Archiving *)

(** The file contents [v] have the mail of the packet [c]: they are the packet, or a packet
    its messages were put into, or an archive ([contains]) that contains it. *)
Definition has_mail (contains : list Z -> list Z -> Prop) (c v : list Z) : Prop :=
  v = c \/ contains v c \/ exists h m a b, c = h ++ m ++ [0; 0] /\ length h = 58%nat /\ v = a ++ m ++ b.
(** a packet is in the outbound, in a file that the next run does not delete *)
Definition secured (env : oenv) (contains : list Z -> list Z -> Prop) (c : list Z) (fs : fsys) : Prop :=
  exists f v, outbound_file env f /\ IsNewPkt f = false /\ fget fs f = Some v /\ has_mail contains c v.
(** the directories for packets *)
Definition own_dir (env : oenv) (n : list Z) : Prop := indir (oe_packetdir env) n \/ indir (oe_packetcreate env) n.
(** What is expected of the packers and of the program run before them: they change nothing
    but the archive, what an archive contains stays in it, a packer that ends with status 0
    has added the packet and one that does not has left it alone. *)
Record packers_ok (exec : list Z -> fsys -> fsys * Z) (env : oenv) (contains : list Z -> list Z -> Prop) : Prop := {
  po_nodup : forall cmd fs, NoDup (map fst fs) -> NoDup (map fst (fst (exec cmd fs)));
  po_before : forall arc pkt cmd fs f, oe_beforepack env <> [] -> ExpandPacker (oe_beforepack env) arc pkt = Some cmd ->
    fget (fst (exec cmd fs)) f = fget fs f;
  po_other : forall c t arc pkt cmd fs f, In c (oe_nodes env) -> on_packer c = Some t -> indir (oe_packetdir env) arc -> own_dir env pkt ->
    ExpandPacker t arc pkt = Some cmd -> f <> arc -> f <> pkt -> fget (fst (exec cmd fs)) f = fget fs f;
  po_stays : forall c t arc pkt cmd fs v x, In c (oe_nodes env) -> on_packer c = Some t -> indir (oe_packetdir env) arc -> own_dir env pkt ->
    ExpandPacker t arc pkt = Some cmd -> fget fs arc = Some v -> contains v x -> exists v', fget (fst (exec cmd fs)) arc = Some v' /\ contains v' x;
  po_added : forall c t arc pkt cmd fs x, In c (oe_nodes env) -> on_packer c = Some t -> indir (oe_packetdir env) arc -> own_dir env pkt ->
    ExpandPacker t arc pkt = Some cmd -> snd (exec cmd fs) = 0 -> fget fs pkt = Some x ->
    exists v', fget (fst (exec cmd fs)) arc = Some v' /\ contains v' x;
  po_failed : forall c t arc pkt cmd fs, In c (oe_nodes env) -> on_packer c = Some t -> indir (oe_packetdir env) arc -> own_dir env pkt ->
    ExpandPacker t arc pkt = Some cmd -> snd (exec cmd fs) <> 0 -> fget (fst (exec cmd fs)) pkt = fget fs pkt }.
(** The names of the new packets are at most 98 characters long and begin with a number of
    eight digits that no other has. *)
Definition numbers_apart (env : oenv) (fs : fsys) : Prop :=
  forall n, fget fs (slashed (oe_packetcreate env) ++ n) <> None -> cstring n -> ~ In PATHCHAR n -> IsNewPkt n = true ->
    (15 <= length n <= 98)%nat /\
    forall n', fget fs (slashed (oe_packetcreate env) ++ n') <> None -> cstring n' -> ~ In PATHCHAR n' -> IsNewPkt n' = true ->
      firstn 8 n = firstn 8 n' -> n = n'.
(** the names of the packets and orphans of earlier runs are at most 98 characters long *)
Definition names_short (env : oenv) (fs : fsys) : Prop :=
  forall n, fget fs (slashed (oe_packetdir env) ++ n) <> None -> cstring n -> ~ In PATHCHAR n -> IsOrphan n || IsPktTmp n = true -> (length n <= 98)%nat.
