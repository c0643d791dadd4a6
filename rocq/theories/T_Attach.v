(** Files attached to netmail: theorems. *)
From Verif Require Import Base M_Str S_Str P_Str M_Mem M_Fs P_Fs M_Cfg M_Upd M_Out M_Filter M_Net M_Toss S_Toss P_Toss M_Attach S_Attach P_Attach.

(** A copy changes no other file, whatever fails. If nothing fails in reading and closing and it
    reports success, the new file has exactly what the old one has, and the old one still has it *)
Theorem C74_copy e fs io file new fs' io' ok : copyfile e fs io file new = (fs', io', ok) ->
  (forall n, n <> new -> fget fs' n = fget fs n) /\ (ok = true -> file <> new -> faithful e -> exists c, fget fs file = Some c /\ fget fs' new = Some c).
Proof. intros H. destruct (copy_spec _ _ _ _ _ _ _ _ H) as (H1 & _ & _ & H4 & _). auto. Qed.
Print Assumptions C74_copy.
(** and it does report success *)
Theorem C74_copy_done e fs file new c : fget fs file = Some c -> file <> new -> opens e -> faithful e -> (forall i, ce_write e i = true) ->
  exists fs', copyfile e fs false file new = (fs', false, true) /\ fget fs' new = Some c.
Proof.
  intros Ef Hd H1 H2 H3. destruct (copy_works e fs file new c Ef Hd H1 H2 H3) as (fs' & E). exists fs'. split; [exact E|].
  destruct (copy_spec _ _ _ _ _ _ _ _ E) as (_ & _ & _ & H4 & _). destruct (H4 eq_refl Hd H2) as (c' & F1 & F2). congruence.
Qed.
Print Assumptions C74_copy_done.
(** A write that fails is noticed: the result says so, no part of the new file is left, and every
    other file is as it was *)
Theorem C74_copy_failed e fs io file new c j : fget fs file = Some c -> file <> new -> opens e -> ce_read e = None -> ce_write e j = false -> Z.of_nat j * 5000 < Z.of_nat (length c) ->
  exists fs', copyfile e fs io file new = (fs', true, false) /\ fget fs' new = None /\ forall n, n <> new -> fget fs' n = fget fs n.
Proof.
  intros Ef Hd H1 H2 H3 H4. destruct (copy_fails e fs io file new c j Ef Hd H1 H2 H3) as (fs' & E & F).
  - assert (EB : Z.of_nat COPYBUFSIZE = 5000) by (with_strategy transparent [COPYBUFSIZE] unfold COPYBUFSIZE; lia). lia.
  - exists fs'. split; [exact E|]. split; [exact F|]. apply (copy_spec _ _ _ _ _ _ _ _ E).
Qed.
Print Assumptions C74_copy_failed.

(** Moving a file: no other file changes; if it fails the file is where it was; if it succeeds it
    is not, and, if nothing fails in reading and closing, what it had is in the new file *)
Theorem C74_move e fs io file new fs' io' ok : movefile e fs io file new = (fs', io', ok) -> file <> new ->
  (forall n, n <> file -> n <> new -> fget fs' n = fget fs n) /\
  (if ok then fget fs' file = None /\ (exists c, fget fs file = Some c /\ (faithful e -> fget fs' new = Some c)) else fget fs' file = fget fs file).
Proof.
  intros H Hd. destruct (move_spec _ _ _ _ _ _ _ _ H Hd) as (H1 & H2 & H3 & H4). split; [exact H1|]. destruct ok; [|auto]. destruct (H3 eq_refl) as [N1 N2]. split; [exact N1|].
  destruct (fget fs file) as [c|] eqn:E; [|congruence]. exists c. split; [reflexivity|]. intros F. apply H4; auto.
Qed.
Print Assumptions C74_move.
(** It succeeds if the file can be renamed, and otherwise if it can be copied *)
Theorem C74_move_done e fs file new c : fget fs file = Some c -> file <> new -> (ce_rename e = true \/ opens e /\ faithful e /\ (forall i, ce_write e i = true)) ->
  exists fs', movefile e fs false file new = (fs', false, true).
Proof. apply move_works. Qed.
Print Assumptions C74_move_done.

(** Mail from other systems: whatever the subject says and whatever fails, no path overflows, the
    paths listed for the next system are those of files in the inbound or the packet directory, and
    no other file is changed *)
Theorem C74_inside inbound packetdir i p envs fs io subject names : dirname inbound -> dirname packetdir -> withslash inbound i -> withslash packetdir p -> i <> p -> attached subject names ->
  exists fs' io' fl, attachfiles false inbound packetdir envs fs io subject = Some (fs', io', fl, true) /\
    Forall2 (fun name f => exists part, lastpart name part /\ (f = (i ++ part, true) \/ f = (p ++ part, true))) names fl /\
    forall n, (forall name part, In name names -> lastpart name part -> n <> i ++ part /\ n <> p ++ part) -> fget fs' n = fget fs n.
Proof.
  intros Hi Hp Wi Wp Hd Ha. unfold attachfiles. rewrite (names_ok _ _ Ha). destruct (all_in inbound packetdir i p Hi Hp Wi Wp Hd envs names (att_names _ _ Ha) 0 fs io) as (fs' & io' & fl & E & O & X & _).
  exists fs', io', fl. split; [exact E|]. split.
  - clear - X. induction X as [|name [f b] ns fs0 [Hb Hf] _ IH]; constructor; [|exact IH]. cbn in Hb, Hf. subst b. exists (GetFilePart name). split; [apply part_last|]. destruct Hf as [->| ->]; auto.
  - intros n H. apply O. intros name I. apply (H name); [exact I|apply part_last].
Qed.
Print Assumptions C74_inside.
(** If the names differ and nothing fails in reading and closing, every file that was there is
    complete where its entry says, in the packet directory or where it was *)
Theorem C74_routed inbound packetdir i p envs fs io subject names : dirname inbound -> dirname packetdir -> withslash inbound i -> withslash packetdir p -> i <> p -> attached subject names ->
  (forall a b part, In a names -> In b names -> lastpart a part -> lastpart b part -> a = b) -> NoDup names -> (forall j, faithful (envs j)) ->
  exists fs' io' fl, attachfiles false inbound packetdir envs fs io subject = Some (fs', io', fl, true) /\ Forall2 (handed fs fs' i p) names fl.
Proof.
  intros Hi Hp Wi Wp Hd Ha Hu Hn Hf. unfold attachfiles. rewrite (names_ok _ _ Ha). destruct (all_in inbound packetdir i p Hi Hp Wi Wp Hd envs names (att_names _ _ Ha) 0 fs io) as (fs' & io' & fl & E & _ & _ & F).
  exists fs', io', fl. split; [exact E|]. apply F; [|exact Hf]. apply parts_nodup; assumption.
Qed.
Print Assumptions C74_routed.

(** Mail of this system: the files named are copied to the packet directory and are themselves
    unchanged. It stops exactly if a write fails; otherwise every file that exists has a complete
    copy that will be deleted when it has been sent, and one that does not is listed by its name *)
Theorem C74_exported inbound packetdir p envs fs subject names : dirname packetdir -> withslash packetdir p -> attached subject names ->
  (forall a b part, In a names -> In b names -> lastpart a part -> lastpart b part -> a = b) -> NoDup names ->
  (forall name part, In name names -> name <> p ++ part \/ In 47 part) -> (forall j, opens (envs j)) -> (forall j, faithful (envs j)) ->
  exists fs' io' fl, attachfiles true inbound packetdir envs fs false subject = Some (fs', io', fl, negb io') /\
    (forall name, In name names -> fget fs' name = fget fs name) /\
    (forall n, (forall name part, In name names -> lastpart name part -> n <> p ++ part) -> fget fs' n = fget fs n) /\
    (io' = false -> Forall2 (copied fs fs' p) names fl).
Proof.
  intros Hp Wp Ha Hu Hn Hq Ho Hf. unfold attachfiles. rewrite (names_ok _ _ Ha).
  assert (Q : forall a b, In a names -> In b names -> a <> p ++ GetFilePart b) by (intros a b Ia _; destruct (Hq a (GetFilePart b) Ia) as [H|H]; [exact H|]; exfalso; apply (part_last b); exact H).
  destruct (all_out packetdir p Hp Wp envs inbound names (att_names _ _ Ha) Ho Q 0 fs) as (fs' & io' & fl & b & E & O & B & F). subst b.
  exists fs', io', fl. split; [exact E|]. split; [intros name I; apply O; intros b Ib; apply Q; auto|]. split; [intros n H; apply O; intros name I; apply (H name); [exact I|apply part_last]|].
  intros ->. apply F; [reflexivity| |exact Hf]. apply parts_nodup; assumption.
Qed.
Print Assumptions C74_exported.
(** and it goes on if no write fails *)
Theorem C74_exported_done inbound packetdir p envs fs subject names : dirname packetdir -> withslash packetdir p -> attached subject names ->
  (forall name part, In name names -> name <> p ++ part \/ In 47 part) -> (forall j, opens (envs j)) -> (forall j, faithful (envs j)) -> (forall j i, ce_write (envs j) i = true) ->
  exists fs' fl, attachfiles true inbound packetdir envs fs false subject = Some (fs', false, fl, true).
Proof.
  intros Hp Wp Ha Hq Ho Hf Hw. unfold attachfiles. rewrite (names_ok _ _ Ha).
  assert (Q : forall a b, In a names -> In b names -> a <> p ++ GetFilePart b) by (intros a b Ia _; destruct (Hq a (GetFilePart b) Ia) as [H|H]; [exact H|]; exfalso; apply (part_last b); exact H).
  exact (all_out_done packetdir p Hp Wp envs inbound names (att_names _ _ Ha) Ho Hf Hw Q 0 fs).
Qed.
Print Assumptions C74_exported_done.

Ltac fall := match goal with |- Forall ?P ?l => let v := eval vm_compute in l in change (Forall P v) end; repeat (apply Forall_cons; [unfold wordch, sepch; lia|]); apply Forall_nil.
Definition good := CE true true true None (fun _ => true) None.
Definition across := CE false true true None (fun _ => true) None.
Example C74_nonvacuous :
  attached (lit "a.zip, c:\x\b.zip") [lit "a.zip"; lit "c:/x/b.zip"] /\ dirname (lit "/in") /\ dirname (lit "/out/") /\ withslash (lit "/in") (lit "/in/") /\ withslash (lit "/out/") (lit "/out/") /\
  faithful good /\ opens good /\ faithful across /\
  attachfiles false (lit "/in") (lit "/out/") (fun j => if Nat.eqb j 0 then good else across) [(lit "/in/a.zip", lit "one"); (lit "/in/b.zip", lit "two")] false (lit "a.zip, c:\x\b.zip") =
    Some ([(lit "/out/b.zip", lit "two"); (lit "/out/a.zip", lit "one")], false, [(lit "/out/a.zip", true); (lit "/out/b.zip", true)], true) /\
  attachfiles true (lit "/in") (lit "/out/") (fun _ => good) [(lit "/my/a.zip", lit "one")] false (lit "\my\a.zip none") =
    Some ([(lit "/out/a.zip", lit "one"); (lit "/my/a.zip", lit "one")], false, [(lit "/out/a.zip", true); (lit "none", false)], true).
Proof.
  split; [|split; [|split; [|split; [|split; [|split; [|split; [|split; [|split]]]]]]]].
  - change (lit "a.zip, c:\x\b.zip") with ([] ++ lit "a.zip" ++ lit ", c:\x\b.zip"). change (lit "a.zip") with (map slash (lit "a.zip")) at 2. apply at_word; [constructor|discriminate| |vm_compute; lia| |].
    + fall.
    + right. eexists. eexists. split; [reflexivity|]. unfold sepch. auto.
    + change (lit ", c:\x\b.zip") with (lit ", " ++ lit "c:\x\b.zip" ++ []). change (lit "c:/x/b.zip") with (map slash (lit "c:\x\b.zip")). apply at_word; [|discriminate| |vm_compute; lia|left; reflexivity|constructor; constructor].
      * fall.
      * fall.
  - split; [fall|cbn; lia].
  - split; [fall|cbn; lia].
  - left. split; [reflexivity|cbn; lia].
  - right. split; reflexivity.
  - split; reflexivity.
  - split; reflexivity.
  - split; reflexivity.
  - with_strategy transparent [COPYBUFSIZE] (vm_compute; reflexivity).
  - with_strategy transparent [COPYBUFSIZE] (vm_compute; reflexivity).
Qed.
Print Assumptions C74_nonvacuous.

(** A file of that name that waits in the packet directory, say for another system, is overwritten *)
Theorem C74_overwrite_refuted : exists fs subject fs' io' fl,
  fget fs (lit "/out/a.zip") = Some (lit "for another") /\
  attachfiles false (lit "/in") (lit "/out") (fun _ => good) fs false subject = Some (fs', io', fl, true) /\ fget fs' (lit "/out/a.zip") = Some (lit "new").
Proof. exists [(lit "/in/a.zip", lit "new"); (lit "/out/a.zip", lit "for another")], (lit "a.zip"). do 3 eexists. split; [reflexivity|]. split; [vm_compute; reflexivity|reflexivity]. Qed.
Print Assumptions C74_overwrite_refuted.
(** If the file has to be copied, an error in reading it is taken for its end: the copy is cut off
    and the file is deleted *)
Theorem C74_readerror_refuted : exists e fs fs' io',
  ce_read e = Some 2%nat /\ fget fs (lit "/in/a") = Some (lit "file") /\ movefile e fs false (lit "/in/a") (lit "/out/a") = (fs', io', true) /\
  fget fs' (lit "/in/a") = None /\ fget fs' (lit "/out/a") = Some (lit "fi").
Proof. exists (CE false true true (Some 2%nat) (fun _ => true) None), [(lit "/in/a", lit "file")]. do 2 eexists. split; [reflexivity|]. split; [reflexivity|]. split; [with_strategy transparent [COPYBUFSIZE] (vm_compute; reflexivity)|]. split; reflexivity. Qed.
Print Assumptions C74_readerror_refuted.
(** The result of closing the copy, when what is in the buffer is written, is not looked at: with
    a full disk the file is lost *)
Theorem C74_close_refuted : exists e fs fs' io',
  ce_close e = Some 0%nat /\ fget fs (lit "/in/a") = Some (lit "file") /\ movefile e fs false (lit "/in/a") (lit "/out/a") = (fs', io', true) /\
  fget fs' (lit "/in/a") = None /\ fget fs' (lit "/out/a") = Some [].
Proof. exists (CE false true true None (fun _ => true) (Some 0%nat)), [(lit "/in/a", lit "file")]. do 2 eexists. split; [reflexivity|]. split; [reflexivity|]. split; [with_strategy transparent [COPYBUFSIZE] (vm_compute; reflexivity)|]. split; reflexivity. Qed.
Print Assumptions C74_close_refuted.
(** Mail of this system: that the copy could not be opened is not looked at: the entry is for a
    file that is not there *)
Theorem C74_uncopied_refuted : exists e fs fs' io',
  ce_out e = false /\ fget fs (lit "/my/a") = Some (lit "file") /\
  attachfiles true (lit "/in") (lit "/out") (fun _ => e) fs false (lit "/my/a") = Some (fs', io', [(lit "/out/a", true)], true) /\ fget fs' (lit "/out/a") = None.
Proof. exists (CE true true false None (fun _ => true) None), [(lit "/my/a", lit "file")]. do 2 eexists. split; [reflexivity|]. split; [reflexivity|]. split; [vm_compute; reflexivity|reflexivity]. Qed.
Print Assumptions C74_uncopied_refuted.
