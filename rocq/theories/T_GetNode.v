(** C67: CrashGetNode. *)
From Verif Require Import Base M_Node4D S_Node4D P_Node4D M_Str S_Str P_Str M_Mem M_Fs M_Out M_Nl S_Nl T_Nl M_Args M_Main M_GetNode S_GetNode P_GetNode.
From Verif Require P_ListOut.

(** a directory with an index that CrashList made of its nodelists *)
Definition indexed (E : gnenv) (dir : list Z) (L : list nlist) : Prop :=
  cstring dir /\ (length dir <= 180)%nat /\
  exists date junk prefs, lists (gn_files E dir) date prefs = map (fun n => (n_name n, content n, n_zone n)) L /\ Forall goodlist L /\
    (forall n, (99 <= length (junk n))%nat) /\ gn_index E dir = Some (crashlist (gn_files E dir) date junk prefs).
Lemma lookup_print E dir L a : indexed E dir L -> valid4d a -> a <> N4 0 0 0 0 ->
  exists ix, gn_lookup E dir (Print4D a) =
    match cmnlFindNL ix (gn_files E dir) a (Some 200%nat) with
    | NlErr e => Some (GnText (cmnlerrstr e ++ [10]) EXIT_ERROR)
    | NlFound region hub None => None
    | NlFound region hub (Some line) => Some (GnText (gn_text a region hub line) EXIT_OK)
    end /\
    match first_entry L a with
    | Some e => forall len, (length (e_line e) + 1 < len)%nat -> exists line,
        cmnlFindNL ix (gn_files E dir) a (Some len) = NlFound (e_region e) (e_hub e) (Some line) /\ (line = nocr (e_line e) ++ [10] \/ line = e_line e)
    | None => forall len, cmnlFindNL ix (gn_files E dir) a len = NlErr CMNLERR_NODE_NOT_FOUND
    end.
Proof.
  intros (Hd & Hl & date & junk & prefs & EL & F & Hj & Hi) Ha H0. pose proof (C44_find _ date junk prefs L a EL F Hj H0) as G. cbv zeta in G.
  exists (crashlist (gn_files E dir) date junk prefs). split.
  - unfold gn_lookup. rewrite print_parse by auto. rewrite Hi. rewrite P_ListOut.path200_ok; [|auto|unfold cstring; repeat (apply Forall_cons; [cbn; lia|]); constructor|].
    + cbn [obind]. change (cmnlOpenNL (joinpath dir (lit "cmnodelist.index")) (crashlist (gn_files E dir) date junk prefs)) with true. cbn [negb]. reflexivity.
    + change (length (lit "cmnodelist.index")) with 16%nat. lia.
  - destruct (first_entry L a); [apply G|exact G].
Qed.

(** For a node in the lists, its address, region and hub are printed and what the first line
    for it says, entry by entry; for others, that they were not found. *)
Theorem C67_shown : forall E dir L a e n, indexed E dir L -> valid4d a -> a <> N4 0 0 0 0 -> nokeyword dir ->
  first_entry L a = Some e -> (length (e_line e) <= 198)%nat -> nodeline_ok n -> nocr (e_line e) = nodetext n ->
  crashgetnode E [Print4D a; dir] = Some (GnText (nodeinfo a (e_region e) (e_hub e) n) EXIT_OK) /\
  (gn_env E = Some dir -> crashgetnode E [Print4D a] = Some (GnText (nodeinfo a (e_region e) (e_hub e) n) EXIT_OK)).
Proof.
  intros E dir L a e n HE Ha H0 Hk Hf Hl Hn Hc. destruct (print_word a Ha) as [W1 W2]. destruct (lookup_print E dir L a HE Ha H0) as (ix & X & Y). rewrite Hf in Y.
  assert (G : gn_lookup E dir (Print4D a) = Some (GnText (nodeinfo a (e_region e) (e_hub e) n) EXIT_OK)).
  { rewrite X. destruct (Y 200%nat ltac:(lia)) as (line & -> & [-> | ->]).
    - rewrite Hc, text_ok; auto. constructor; [lia|constructor].
    - assert (T : exists t, e_line e = nodetext n ++ t /\ Forall (fun c => c < 33 \/ c > 127) t).
      { rewrite <- Hc. unfold nocr. destruct (Z.eqb_spec (last (e_line e) 0) 13) as [E13|_]; [|exists []; rewrite app_nil_r; auto].
        exists [13]. split; [|constructor; [lia|constructor]]. destruct (e_line e) as [|c l] eqn:El; [discriminate E13|]. rewrite <- El in *. rewrite <- E13. apply app_removelast_last. rewrite El. discriminate. }
      destruct T as (t & -> & Ht). rewrite text_ok; auto. }
  split; [rewrite command_two; auto|]. intros Ee. rewrite command_one, Ee; auto.
Qed.
Print Assumptions C67_shown.
Theorem C67_missing : forall E dir L a, indexed E dir L -> valid4d a -> a <> N4 0 0 0 0 -> nokeyword dir -> first_entry L a = None ->
  crashgetnode E [Print4D a; dir] = Some (GnText (lit "Node not found" ++ [10]) EXIT_ERROR).
Proof.
  intros E dir L a HE Ha H0 Hk Hf. destruct (print_word a Ha) as [W1 W2]. destruct (lookup_print E dir L a HE Ha H0) as (ix & X & Y). rewrite Hf in Y.
  rewrite command_two, X, Y; auto.
Qed.
Print Assumptions C67_missing.
(** What is no address, and a directory without an index, is refused. *)
Theorem C67_refused : forall E w dir, nokeyword w -> nohelp w -> nokeyword dir ->
  (Parse4D w = None -> crashgetnode E [w; dir] = Some (GnText (lit "Invalid node " ++ w ++ [10]) EXIT_ERROR)) /\
  (Parse4D w <> None -> gn_index E dir = None -> crashgetnode E [w; dir] = Some (GnText (lit "Failed to open nodelist index" ++ [10]) EXIT_ERROR)) /\
  (Parse4D w <> None -> cstring dir -> (length dir <= 180)%nat -> forall ix, gn_index E dir = Some ix -> (4 <= length ix)%nat -> firstn 4 ix <> lit "CNL1" ->
     crashgetnode E [w; dir] = Some (GnText (lit "Unknown format of nodelist index" ++ [10]) EXIT_ERROR)) /\
  (gn_env E = None -> crashgetnode E [w] = Some (GnText (lit "No directory specified and CMNODELISTDIR not set" ++ [10]) EXIT_ERROR)) /\
  crashgetnode E [] = Some GnBadArgs.
Proof.
  intros E w dir Hw Hh Hd. split; [|split; [|split; [|split]]].
  - intros P. rewrite command_two by auto. unfold gn_lookup. rewrite P. repeat rewrite <- app_assoc. reflexivity.
  - intros P I. rewrite command_two by auto. unfold gn_lookup. destruct (Parse4D w); [|congruence]. rewrite I. reflexivity.
  - intros P Cd Ld ix I Lx Nx. rewrite command_two by auto. unfold gn_lookup. destruct (Parse4D w); [|congruence]. rewrite I.
    rewrite P_ListOut.path200_ok; [|auto|unfold cstring; repeat (apply Forall_cons; [cbn; lia|]); constructor|change (length (lit "cmnodelist.index")) with 16%nat; lia].
    cbn [obind]. replace (cmnlOpenNL (joinpath dir (lit "cmnodelist.index")) ix) with false; [reflexivity|]. symmetry. unfold cmnlOpenNL. apply streq_neq. intros X. apply Nx.
    rewrite firstn_app, firstn_firstn, (firstn_length_le ix) in X by lia. change (4 - 4)%nat with 0%nat in X. cbn [firstn Nat.min] in X. rewrite app_nil_r in X.
    destruct ix as [|a [|b [|c [|d ix]]]]; cbn [length] in Lx; try lia. cbn [firstn] in *. unfold CNL1, lit in X. cbn in X.
    destruct (Z.eqb_spec a 0); [discriminate X|]. injection X as -> X. destruct (Z.eqb_spec b 0); [discriminate X|]. injection X as -> X.
    destruct (Z.eqb_spec c 0); [discriminate X|]. injection X as -> X. destruct (Z.eqb_spec d 0); [discriminate X|]. injection X as ->. reflexivity.
  - intros P. rewrite command_one, P by auto. reflexivity.
  - reflexivity.
Qed.
Print Assumptions C67_refused.

(** ** An example *)
Definition gline : list Z := lit "Pvt,1,Some BBS,Town,Jane Doe,1-2-3,300,CM,XA".
Definition glist : nlist := NL (lit "L") 2 [lit "Host,5,x"; gline; lit ",2,Some BBS,,Jane Doe,1-2-3,300,CM"] [].
Definition gfs : fsys := [(lit "L", content glist)].
Definition gix : list Z := crashlist gfs (fun _ => None) (fun _ => repeat 77 99) (lit "L 2" ++ [10]).
Definition genv : gnenv := GN (fun d => if streq d (lit "/n") then Some gix else None) (fun _ => gfs) None.
Lemma gindexed : indexed genv (lit "/n") [glist].
Proof.
  split; [unfold cstring; repeat (apply Forall_cons; [cbn; lia|]); constructor|]. split; [cbn; lia|]. exists (fun _ => None), (fun _ => repeat 77 99), (lit "L 2" ++ [10]).
  split; [vm_compute; reflexivity|]. split; [|split; [intros; rewrite repeat_length; lia|reflexivity]].
  constructor; [|constructor].
  assert (G : forall l, forallb (fun c => (1 <=? c) && (c <? 256) && negb (c =? 10)) l && Nat.leb (length l) 498 = true -> goodline l).
  { intros l H. apply andb_prop in H as [H1 H2]. split; [|apply Nat.leb_le; auto]. rewrite forallb_forall in H1. apply Forall_forall. intros c Hc. specialize (H1 c Hc). rewrite !Bool.andb_true_iff, Bool.negb_true_iff, Z.eqb_neq in H1. lia. }
  split; [unfold cstring; repeat (apply Forall_cons; [cbn; lia|]); constructor|]. split; [cbn; lia|]. split; [unfold is_u16; cbn; lia|].
  split; [cbn [n_lines glist]; repeat (constructor; [apply G; reflexivity|]); constructor|]. split; [apply G; reflexivity|reflexivity].
Qed.
Definition gnode : nodeline := ND (lit "Pvt") (lit "1") [lit "Some BBS"; lit "Town"; lit "Jane Doe"; lit "1-2-3"; lit "300"] (Some (lit "CM,XA")).
Example C67_nonvacuous :
  indexed genv (lit "/n") [glist] /\ nokeyword (lit "/n") /\ nodeline_ok gnode /\ nodetext gnode = gline /\
  (exists e, first_entry [glist] (N4 2 5 1 0) = Some e /\ e_line e = gline /\ nocr (e_line e) = nodetext gnode /\ (length (e_line e) <= 198)%nat) /\
  first_entry [glist] (N4 2 5 3 0) = None /\
  crashgetnode genv [lit "2:5/1"; lit "/n"] = Some (GnText (nodeinfo (N4 2 5 1 0) 0 0 gnode) EXIT_OK) /\
  Parse4D (lit "2:5/x") = None /\ nokeyword (lit "2:5/x") /\ nohelp (lit "2:5/x").
Proof.
  split; [apply gindexed|]. split; [split; discriminate|]. split.
  { assert (F : forall f, match f with [] => true | _ => false end || existsb (Z.eqb 44) f = false -> filled f).
    { intros f H. apply orb_false_iff in H as [H1 H2]. split; [intros ->; discriminate H1|]. intros X. assert (Y : existsb (Z.eqb 44) f = true) by (apply existsb_exists; exists 44; auto). congruence. }
    split; [apply (F (lit "Pvt")); reflexivity|]. split; [apply F; reflexivity|]. split; [cbn [nd_entries gnode]; repeat (constructor; [apply F; reflexivity|]); constructor|].
    split; [cbn; lia|]. split; [split; [discriminate|reflexivity]|]. exists (lit "Pvt,1,Some BBS,Town,Jane Doe,1-2-3,300,CM,X"), 65. split; [reflexivity|lia]. }
  split; [reflexivity|]. split; [eexists; split; [vm_compute; reflexivity|]; split; [reflexivity|split; [reflexivity|cbn; lia]]|]. split; [vm_compute; reflexivity|]. split; [vm_compute; reflexivity|].
  split; [reflexivity|]. split; [split; discriminate|]. cbn. intros H; repeat destruct H as [H|H]; try discriminate H; auto.
Qed.

(** ** What goes wrong *)
(** entries that are empty are skipped: who has no location is shown as the location *)
Theorem C67_empty_refuted : crashgetnode genv [lit "2:5/2"; lit "/n"] =
  Some (GnText (nodeinfo (N4 2 5 2 0) 0 0 (ND [] (lit "2") [lit "Some BBS"; lit "Jane Doe"; lit "1-2-3"; lit "300"; lit "CM"] None)) EXIT_OK).
Proof. vm_compute. reflexivity. Qed.
(** the end mark of a list is taken for the node 0:0/0.0; then the line was never read *)
Theorem C67_null_refuted : first_entry [glist] (N4 0 0 0 0) = None /\ crashgetnode genv [lit "0:0/0"; lit "/n"] = None.
Proof.
  split; [vm_compute; reflexivity|]. rewrite command_two.
  - unfold gn_lookup. change (Parse4D (lit "0:0/0")) with (Some (N4 0 0 0 0)). change (gn_index genv (lit "/n")) with (Some gix).
    rewrite P_ListOut.path200_ok; [|unfold cstring; repeat (apply Forall_cons; [cbn; lia|]); constructor|unfold cstring; repeat (apply Forall_cons; [cbn; lia|]); constructor|cbn; lia]. cbn [obind].
    replace (cmnlOpenNL (joinpath (lit "/n") (lit "cmnodelist.index")) gix) with true by (vm_compute; reflexivity). cbn [negb].
    unfold cmnlFindNL. assert (X : exists nm, findlist (S (length gix)) (skipn 4 gix) (N4 0 0 0 0) = inl (nm, idxend) /\ cstr nm = lit "L") by (eexists; split; vm_compute; reflexivity).
    destruct X as (nm & -> & ->). change (fget (gn_files genv (lit "/n")) (lit "L")) with (Some (content glist)). change (i_off idxend) with 4294967295. cbv iota beta. rewrite skipn_all2; [reflexivity|].
    apply Nat2Z.inj_le. rewrite Z2Nat.id by lia. replace (Z.of_nat (length (content glist))) with 89 by (vm_compute; reflexivity). lia.
  - split; discriminate.
  - cbn. intros H; repeat destruct H as [H|H]; try discriminate H; auto.
  - split; discriminate.
Qed.
(** accented letters at the end of a line are dropped *)
Theorem C67_accent_refuted : forall a r h, gn_text a r h (lit ",5,Caf" ++ [233; 10]) = gn_text a r h (lit ",5,Caf" ++ [10]).
Proof. reflexivity. Qed.
