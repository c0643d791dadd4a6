(** Properties C08 to C12: message text, line classification and SEEN-BY lists. *)
From Coq Require Import Sorting.Sorted Sorting.Permutation.
From Verif Require Import Base M_Node4D S_Node4D M_Pat S_Pat M_Mem S_Mem P_Mem.

(** C08: whatever is appended is stored, in order; chunks stay within 10000 bytes; the
    append loop ends ([Some]). *)
Theorem C08_text_preserved : forall bufs, exists cs,
  addbufs [] bufs = Some cs /\ concat (rev cs) = concat bufs /\
  Forall (fun c => Z.of_nat (length c) <= 10000) cs.
Proof.
  intros bufs. destruct (addbufs_spec bufs []) as (cs & E & Hc & Hl); [constructor|].
  exists cs. split; [exact E|]. split; [exact Hc|]. eapply Forall_impl; [|exact Hl].
  unfold CHUNKLEN. simpl. intros. lia.
Qed.
Print Assumptions C08_text_preserved.

(** The same for any chunk size, starting from any message that obeys the size. *)
Theorem C08_any_chunk_size : forall CH cs buf, (1 <= CH)%nat -> Forall (fun c => (length c <= CH)%nat) cs ->
  exists cs', mmAddBuf_gen CH cs buf = Some cs' /\
    concat (rev cs') = concat (rev cs) ++ buf /\ Forall (fun c => (length c <= CH)%nat) cs'.
Proof. exact mmAddBuf_gen_spec. Qed.
Print Assumptions C08_any_chunk_size.

(** a line that does not fit moves to a new chunk together with its unfinished beginning *)
Example C08_nonvacuous :
  mmAddBuf_gen 8 [lit "ab" ++ [13] ++ lit "cd"] (lit "efgh") = Some [lit "cdefgh"; lit "ab" ++ [13]] /\
  mmAddBuf_gen 3 [] (lit "abcdefgh") = Some [lit "gh"; lit "def"; lit "abc"].
Proof. vm_compute. auto. Qed.

(** C09: one line of an echomail message. *)
Theorem C09_seenby_line : forall mm line, Area mm <> [] -> is_seenby_line line -> crline line ->
  exists l', AddSeenby (skipn 9 line) (SeenBy mm) = Some l' /\ mmAddLine mm line = Some (set_SeenBy mm l').
Proof. exact mmAddLine_seenby. Qed.
Print Assumptions C09_seenby_line.

Theorem C09_path_line : forall mm line, Area mm <> [] -> is_path_line line -> crline line ->
  mmAddLine mm line = Some (set_Path mm (mmAddPath (skipn 7 line) (Path mm))).
Proof. exact mmAddLine_path. Qed.
Print Assumptions C09_path_line.

(** A whole echomail message, line by line: the text consists of exactly the lines that
    are neither SEEN-BY nor PATH lines, unchanged and in order; PATH lines are recorded in
    order; SEEN-BY lines go to the SEEN-BY list. *)
Theorem C09_message : forall area ls, area <> [] -> Forall crline ls ->
  Forall (fun l => is_origin_line l -> wf_origin l \/ ~ In 40 l) ls ->
  exists mm, addlines (set_Area mm0 area) ls = Some mm /\
    mmtext mm = concat (plain_lines ls) /\
    Path mm = map (fun l => striptrail (firstn 99 (skipn 7 l))) (path_lines ls) /\
    fold_left (fun o l => obind o (AddSeenby (skipn 9 l))) (filter seenbyb ls) (Some []) = Some (SeenBy mm) /\
    Area mm = area.
Proof.
  intros area ls Ha Hc Ho. destruct (addlines_spec ls (set_Area mm0 area)) as (mm & E & H1 & H2 & H3 & H4 & _); auto.
  { constructor. }
  exists mm. repeat (split; auto).
Qed.
Print Assumptions C09_message.

(** Netmail: every line is stored. *)
Theorem C09_netmail_line : forall mm line, Area mm = [] -> Forall (fun c => (length c <= CHUNKLEN)%nat) (TextChunks mm) ->
  crline line ->
  exists mm', mmAddLine mm line = Some mm' /\ mmtext mm' = mmtext mm ++ line /\ SeenBy mm' = SeenBy mm /\
    Path mm' = Path mm /\ Area mm' = [] /\ To mm' = To mm /\ From mm' = From mm /\ Subject mm' = Subject mm /\
    Attr mm' = Attr mm.
Proof.
  intros mm line Ha Hch Hc. destruct (mmAddLine_text mm line Hch Hc) as (mm' & H1 & H2 & H3 & H4 & H5 & H6 & H7 & H8 & H9 & H10 & H11).
  { intros He. unfold is_echo in He. contradiction. }
  exists mm'. rewrite <- Ha. repeat (split; auto).
Qed.
Print Assumptions C09_netmail_line.

(** The address of the origin line is recorded, for every address, network name and
    domain. *)
Theorem C09_origin_address : forall mm text name n dom,
  Area mm <> [] -> Forall (fun c => (length c <= CHUNKLEN)%nat) (TextChunks mm) -> valid4d n -> zone n <> 0 ->
  Forall (fun x => x <> 13 /\ x <> 40 /\ isdigit x = false) name ->
  (dom = [] \/ exists d, dom = 64 :: d /\ ~ In 41 d /\ ~ In 40 d /\ (length d <= 24)%nat) ->
  exists mm', mmAddLine mm (lit " * Origin: " ++ text ++ lit "(" ++ name ++ Print4D n ++ dom ++ lit ")" ++ [13]) = Some mm' /\
    Origin4D mm' = n.
Proof.
  intros mm text name n dom He Hch Hn Hz Hj Hd. unfold mmAddLine.
  set (line := lit " * Origin: " ++ text ++ lit "(" ++ name ++ Print4D n ++ dom ++ lit ")" ++ [13]).
  assert (Hx : ExtractAddress line = POk n).
  { replace line with ((lit " * Origin: " ++ text) ++ 40 :: name ++ Print4D n ++ dom ++ 41 :: [13]).
    - apply ExtractAddress_ok; auto. intros [H|[]]; discriminate.
    - unfold line. rewrite <- app_assoc. reflexivity. }
  assert (H1 : prefixb (lit "SEEN-BY:") line = false).
  { apply prefixb_false. intros (r & Hr). unfold line in Hr. discriminate. }
  assert (H2 : prefixb (SOH ++ lit "PATH:") line = false).
  { apply prefixb_false. intros (r & Hr). unfold line in Hr. discriminate. }
  assert (H3 : prefixb (lit " * Origin: ") line = true).
  { apply prefixb_spec. unfold line. eexists; reflexivity. }
  rewrite H1, H2, H3, Hx, !andb_false_r. clearbody line.
  destruct (Area mm); [congruence|]. cbn [andb].
  destruct (Z.eqb_spec (zone n) 0) as [E|E]; [contradiction|].
  destruct (mmAddBuf_spec (TextChunks mm) line Hch) as (cs' & Eb & _). cbn [TextChunks set_Origin4D].
  rewrite Eb. eexists; split; reflexivity.
Qed.
Print Assumptions C09_origin_address.

(** Finding: an origin line whose last parenthesis is not closed makes the program read
    behind the end of the line. *)
Theorem C09_unclosed_origin_refuted : exists line, crline line /\ is_origin_line line /\
  mmAddLine (set_Area mm0 (lit "AREA")) line = None.
Proof.
  exists (lit " * Origin: me (2:201/505" ++ [13]). split; [split; [|left; eexists; exists 13; split; [reflexivity|auto]]|].
  - litc. repeat constructor; lia.
  - split; [eexists; reflexivity|]. vm_compute. reflexivity.
Qed.
Print Assumptions C09_unclosed_origin_refuted.

(** Finding: a message that ends with "SEEN-BY:" and no carriage return makes the program
    read behind the terminator. *)
Theorem C09_unterminated_seenby_refuted : exists line, cstring line /\
  mmAddLine (set_Area mm0 (lit "AREA")) line = None.
Proof. exists (lit "SEEN-BY:"). split; [litc; repeat constructor; lia|reflexivity]. Qed.
Print Assumptions C09_unterminated_seenby_refuted.

Example C09_nonvacuous :
  let ls := [lit "Hello" ++ [13]; lit " * Origin: me (FidoNet 2:201/505)" ++ [13];
             lit "SEEN-BY: 201/505 506" ++ [13]; 1 :: lit "PATH: 201/505" ++ [13]] in
  Forall crline ls /\ Forall (fun l => is_origin_line l -> wf_origin l \/ ~ In 40 l) ls /\
  exists mm, addlines (set_Area mm0 (lit "AREA")) ls = Some mm /\
    mmtext mm = lit "Hello" ++ [13] ++ lit " * Origin: me (FidoNet 2:201/505)" ++ [13] /\
    Path mm = [lit "201/505"] /\ entries (SeenBy mm) = [(201, 505); (201, 506)] /\ Origin4D mm = N4 2 201 505 0.
Proof.
  cbv zeta. split.
  { litc. repeat (apply Forall_cons; [split; [repeat (apply Forall_cons; [lia|]); apply Forall_nil|]|]); [..|apply Forall_nil];
    match goal with |- (exists r c, ?l = _ /\ _) \/ _ => left; exists (removelast l), 13; split; [reflexivity|auto] end. }
  split.
  { repeat (apply Forall_cons; [intros H; try (right; litc; simpl; lia)|]); [|apply Forall_nil].
    left. exists (lit " * Origin: me "), (lit "FidoNet "), (N4 2 201 505 0), [], [13].
    split; [reflexivity|]. repeat (split; [unfold is_u16; simpl; lia|]).
    split; [litc; repeat constructor; lia|]. split; [simpl; lia|auto]. }
  eexists; split; [vm_compute; reflexivity|]. vm_compute. auto.
Qed.

(** C10: any sequence of additions and removals by pattern, from the empty list, gives
    exactly the set of the specification (0/0 is not an address: it marks removed
    entries), without duplicates. *)
Theorem C10_is_a_set : forall ops, Forall sbop_ok ops ->
  let l := fold_left sbstep ops [] in
  (forall x, x <> (0, 0) -> (In x (entries l) <-> fold_left setstep ops (fun _ => False) x)) /\
  NoDup (live l).
Proof.
  intros ops H. destruct (sbsteps_spec ops H [] (fun _ => False)) as (H1 & H2 & _).
  - constructor.
  - intros; simpl; tauto.
  - constructor.
  - auto.
Qed.
Print Assumptions C10_is_a_set.

Theorem C10_removed_by_pattern : forall ops p x, Forall sbop_ok ops -> x <> (0, 0) ->
  In x (entries (mmRemNodes2DListPat (fold_left sbstep ops []) p)) -> ~ matches2d p x.
Proof.
  intros ops p x H Hx Hin. destruct (sbsteps_spec (ops ++ [SbRemPat p])) with (l := @nil (list node2d)) (s := fun _ : node2d => False) as (H1 & _ & _).
  - apply Forall_app; split; auto. repeat constructor.
  - constructor.
  - intros; simpl; tauto.
  - constructor.
  - rewrite !fold_left_app in H1. apply H1 in Hin; auto. simpl in Hin. tauto.
Qed.
Print Assumptions C10_removed_by_pattern.

(** Finding: removing a single address (mmRemNodes2DList) compares the node number with
    an index and does not remove the address. *)
Theorem C10_remove_one_refuted : exists l net node, In (net, node) (entries l) /\ (net, node) <> (0, 0) /\
  In (net, node) (entries (mmRemNodes2DList l net node)).
Proof.
  exists [[(201, 505)]], 201, 505. split; [left; auto|]. split; [discriminate|]. vm_compute. auto.
Qed.
Print Assumptions C10_remove_one_refuted.

Example C10_nonvacuous :
  let ops := [SbAdd 201 505; SbAdd 201 506; SbAdd 201 505; SbAdd 200 1; SbRemPat (NP2 (lit "201") (lit "50?"))] in
  Forall sbop_ok ops /\ live (fold_left sbstep ops []) = [(200, 1)] /\
  fold_left setstep ops (fun _ => False) (200, 1).
Proof.
  cbv zeta. split; [repeat constructor; unfold is_u16; lia|]. split; [vm_compute; reflexivity|].
  cbn [fold_left setstep]. split; [tauto|]. intros H.
  apply (P_Pat.Compare2DPat_spec (NP2 (lit "201") (lit "50?")) 200 1) in H; [discriminate H| |]; unfold is_u16; lia.
Qed.

(** C11: the printed lines, each at most 77 characters and a carriage return, hold every
    entry; the output fits the allocated buffer ([Some]); adding the lines to an echomail
    message adds exactly the printed addresses. *)
Theorem C11_print_parse : forall l mm, pairs_ok (entries l) -> Area mm <> [] ->
  exists lines mm',
    mmMakeSeenByBuf l = Some (concat (map (fun s => s ++ [13]) lines)) /\
    Forall (fun s => (length s <= 77)%nat /\ ~ In 13 s /\ is_seenby_line s) lines /\
    addlines mm (map (fun s => s ++ [13]) lines) = Some mm' /\
    (forall x, In x (entries (SeenBy mm')) <-> In x (entries (SeenBy mm)) \/ In x (live l)) /\
    (NoDup (live l) -> SeenBy mm = [] -> entries (SeenBy mm') = live l).
Proof.
  intros l mm Hp He. destruct (mmMakeSeenByBuf_spec l Hp) as (text & gs & E & Ht & Hg & Hc).
  assert (Hpg : Forall (fun g => pairs_ok (fst g)) gs).
  { apply Forall_forall. intros g Hin. apply Forall_forall. intros x Hx.
    assert (Hxl : In x (live l)) by (rewrite <- Hc; apply in_concat; exists (fst g); split; auto; apply in_map; auto).
    apply live_in in Hxl as [Hxl _]. unfold pairs_ok in Hp. rewrite Forall_forall in Hp. auto. }
  exists (map snd gs), (set_SeenBy mm (addall (concat (map fst gs)) (SeenBy mm))).
  split; [rewrite map_map, E, Ht; reflexivity|]. split.
  { apply Forall_forall. intros s Hs. apply in_map_iff in Hs as (g & <- & Hin).
    rewrite Forall_forall in Hg, Hpg. destruct (Hg _ Hin) as [Hl Hlen]. split; [exact Hlen|].
    apply (sbline_shape _ _ Hl). auto. }
  split; [rewrite map_map; apply addlines_seenby; auto; eapply Forall_impl; [|exact Hg]; simpl; tauto|].
  rewrite Hc. cbn [SeenBy set_SeenBy]. split.
  - intros x. apply addall_in.
  - intros Hn ->. rewrite addall_fresh; auto.
Qed.
Print Assumptions C11_print_parse.

(** Reading any line of the usual form: each entry either "net/node" or, when its net is
    the one of the entry before it, "node" alone. *)
Theorem C11_read_any_form : forall es ts l, tokseq 0 es ts -> ts <> [] -> pairs_ok es ->
  AddSeenby (skipn 9 ((lit "SEEN-BY:" ++ concat (map (fun t => 32 :: t) ts)) ++ [13])) l = Some (addall es l).
Proof.
  intros es ts l Ht Hn Hp. apply sbline_parse; auto. exists ts. split; auto. split; auto.
  intros ->. inversion Ht. subst. contradiction.
Qed.
Print Assumptions C11_read_any_form.

(** Reading always ends. *)
Theorem C11_read_total : forall s l, exists l', AddSeenby s l = Some l'.
Proof. exact AddSeenby_total. Qed.
Print Assumptions C11_read_total.

Example C11_nonvacuous :
  let l := [[(201, 505); (201, 506); (0, 0); (65535, 65535)]] in
  pairs_ok (entries l) /\ live l = [(201, 505); (201, 506); (65535, 65535)] /\
  mmMakeSeenByBuf l = Some (lit "SEEN-BY: 201/505 506 65535/65535" ++ [13]).
Proof.
  cbv zeta. split; [repeat constructor; unfold is_u16; simpl; lia|]. vm_compute. auto.
Qed.

(** C12: sorting gives a sorted permutation, whatever the number of blocks, for every list
    that additions and removals can build. *)
Theorem C12_sort : forall ops,
  let l := fold_left sbstep ops [] in
  exists l', mmSortNodes2D l = Some l' /\ Permutation (entries l) (entries l') /\
    StronglySorted n2order (entries l') /\ wfblocks l'.
Proof. intros ops. apply mmSort_spec. apply sbsteps_wf. exact I. Qed.
Print Assumptions C12_sort.

(** A sorted list can be added to and sorted again. *)
Theorem C12_sort_again : forall ops l, wfblocks l ->
  exists l', mmSortNodes2D (fold_left sbstep ops l) = Some l' /\
    Permutation (entries (fold_left sbstep ops l)) (entries l') /\ StronglySorted n2order (entries l') /\ wfblocks l'.
Proof. intros ops l H. apply mmSort_spec. apply sbsteps_wf. exact H. Qed.
Print Assumptions C12_sort_again.

Example C12_nonvacuous :
  mmSortNodes2D (fold_left sbstep [SbAdd 201 506; SbAdd 201 505; SbAdd 200 7] []) =
  Some [[(200, 7); (201, 505); (201, 506)]].
Proof. vm_compute. reflexivity. Qed.
