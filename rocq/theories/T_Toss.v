(** C29: no mail is lost when a toss run is interrupted. *)
From Coq Require Import Permutation.
From Verif Require Import Base M_Node4D S_Node4D M_Pat M_Str S_Str P_Str M_Mem M_Cfg M_Pkt M_Fs P_Fs M_Expr M_Filter M_Out S_Out P_Out M_Toss S_Toss P_Toss P_Arch P_Run.

(** Until archiving is over, each non-empty packet and bundle of the inbound is on the disk,
    wherever the run is interrupted, and whatever the message handler, the external programs
    and the directory order do. *)
Theorem C29_inbound : forall exec during env sort S readpkt side packets inbound tempdir unpack noread (st : S) fs last r,
  layout env inbound tempdir -> (forall l, Permutation (sort l) l) -> leaves_inbound exec during inbound ->
  (forall st c, Forall (fun o => forall n, names o n -> ~ indir inbound n) (side st c)) -> NoDup (map fst fs) -> (forall st, Forall opkt_fine (packets st)) ->
  TossDir exec env sort readpkt side packets inbound tempdir unpack noread st fs last = Some r ->
  forall fs', interrupted exec during fs (tr_read r ++ tr_archive r) fs' ->
  forall n c, fget fs (slashed inbound ++ n) = Some c -> cstring n -> ~ In PATHCHAR n -> length n = 12%nat -> c <> [] ->
    kept (slashed inbound ++ n) c fs'.
Proof.
  intros exec during env sort S readpkt side packets inbound tempdir unpack noread st fs last r L Hsort Hleave Hside Hnd Hfine E fs' Hint n c Hg Hn Hs Hl Hc.
  destruct L as [Hpd [Hpc Hpcl] Htd [Hin Hinl] Htemp Hout].
  assert (Hpc' : dir_ok (oe_packetcreate env)) by (split; auto; lia).
  assert (Hex : forall cmd fs f, indir inbound f -> fget (fst (exec cmd fs)) f = fget fs f) by (intros; apply Hleave; auto).
  assert (Hdu : forall cmd fs fs' f, during cmd fs fs' -> indir inbound f -> fget fs' f = fget fs f) by (intros cmd fs1 fs2 f Hd Hi; apply (Hleave cmd fs1 f Hi); auto).
  set (f := slashed inbound ++ n) in *.
  enough (K : keeps exec during (kept f c) fs (tr_read r ++ tr_archive r)) by (apply K; auto). clear fs' Hint.
  unfold TossDir in E. destruct (beforeops _ _) as [o0|] eqn:E0; [|discriminate]. cbn [obind] in E.
  assert (W0 := before_within _ _ _ Hpc' (readdir_fine fs (oe_packetcreate env) IsNewPkt) E0).
  assert (Hfor : forall o, within env o -> Forall (foreign_op inbound) o).
  { intros o W. eapply Forall_impl; [|exact W]. intros x Hx m Hm. apply Hout; auto. }
  assert (K0 : keeps exec during (kept f c) fs o0).
  { eapply keeps_foreigns with (inbound := inbound) (m := n); eauto; [exists f; auto|]. apply Hfor, W0. }
  set (fs0 := run exec fs o0) in *.
  assert (Hnd0 : NoDup (map fst fs0)) by (apply dels_nodup; [apply W0|auto]).
  assert (Hkept0 : kept f c fs0) by (apply keeps_end in K0; exact K0).
  assert (Hg0 : fget fs0 f = Some c).
  { unfold fs0. pose proof (Hfor _ (proj1 W0)) as F. destruct W0 as [_ W0]. clear - Hg F W0 Hn Hs. revert fs Hg. induction o0 as [|x o0 IH]; intros fs Hg; [exact Hg|].
    inversion_clear F as [|? ? F1 F2]. cbn [run fold_left]. apply IH; auto; [intros y Hy; apply W0; right; auto|]. destruct (W0 x) as (p & ->); [left; auto|]. cbn [apply].
    rewrite fget_del_other; auto. intros ->. apply (F1 f); [reflexivity|]. exists n. auto. }
  destruct (tosspkts _ _ _ _ _ _ st fs0 []) as [[[[st1 o1] del1] ok1]|] eqn:E1; [|discriminate]. cbn [obind] in E.
  assert (K1 : keeps exec during (kept f c) fs0 o1).
  { eapply tosspkts_keeps with (inbound := inbound) (m := n); eauto. apply sort_Forall; auto. apply readdir_twelve, IsPkt_12. }
  destruct (if ok1 then _ else _) as [[[[st2 o2] del2] ok2]|] eqn:E2; [|discriminate]. cbn [obind] in E.
  assert (K2 : keeps exec during (kept f c) (run exec fs0 o1) o2).
  { apply keeps_end in K1. destruct ok1; [|assert (o2 = []) by congruence; subst o2; apply keeps_nil; auto].
    eapply tossarcs_keeps with (inbound := inbound) (m := n); [..|exact E2]; eauto.
    - apply sort_Forall; auto. apply readdir_twelve, IsArc_12.
    - apply sort_Forall; auto. apply Forall_forall. intros [m z] Hm. apply readdir_In in Hm as (m' & c' & -> & Hin' & -> & Hm1 & Hm2 & Hm3). cbn [fst snd].
      intros Ef. apply IsArc_12 in Hm3. rewrite firstn_all2 in Ef by lia. rewrite Ef in Hin'.
      assert (c' = c).
      { clear - Hin' Hg0 Hnd0. induction fs0 as [|[k v] l IH]; [destruct Hin'|]. cbn [map fst fget] in *. inversion_clear Hnd0 as [|? ? H1 H2].
        destruct Hin' as [H|H].
        - assert (k = f) by congruence. subst k. rewrite streq_refl in Hg0. congruence.
        - destruct (streq f k) eqn:Es; [|auto]. apply streq_eq in Es. subst k. exfalso. apply H1. apply (in_map fst) in H. exact H. }
      subst c'. destruct c; [congruence|]. cbn [List.length]. lia. }
  destruct (closeops env (packets st2)) as [o3|] eqn:E3; [|discriminate]. cbn [obind] in E.
  assert (W3 : within env o3) by (eapply closeops_within; eauto).
  assert (K : keeps exec during (kept f c) fs (o0 ++ o1 ++ o2 ++ o3)).
  { apply keeps_app; [exact K0|]. apply keeps_app; [exact K1|]. apply keeps_app; [exact K2|]. eapply keeps_foreigns with (inbound := inbound) (m := n); eauto. eapply keeps_end; exact K2. }
  destruct ok2.
  - destruct (ArchiveOutbound _ _ _ _ _) as [[[st' o4] b]|] eqn:E4; [|discriminate]. cbn [obind fst snd] in E. apply some_eq in E. subst r. cbn [tr_read tr_archive].
    apply keeps_app; [exact K|]. eapply keeps_foreigns with (inbound := inbound) (m := n); eauto; [eapply keeps_end; exact K|].
    apply Hfor. eapply Archive_within in E4; auto. apply E4.
  - apply some_eq in E. subst r. cbn [tr_read tr_archive]. rewrite app_nil_r. exact K.
Qed.
Print Assumptions C29_inbound.

(** Archiving that reports success has brought each new packet to safety. *)
Theorem C29_archived : forall exec env sort contains fs last st' o,
  packers_ok exec env contains -> dir_ok (oe_packetdir env) -> dir_ok (oe_packetcreate env) -> (forall l, Permutation (sort l) l) ->
  NoDup (map fst fs) -> numbers_apart env fs -> names_short env fs ->
  ArchiveOutbound exec env sort fs last = Some (st', o, true) ->
  forall n h m, cstring n -> ~ In PATHCHAR n -> IsNewPkt n = true -> length h = 58%nat ->
    fget fs (slashed (oe_packetcreate env) ++ n) = Some (h ++ m ++ [0; 0]) ->
    secured env contains (h ++ m ++ [0; 0]) (os_fs st') /\ os_fs st' = run exec fs o.
Proof.
  intros. split; [eapply Archive_safe; eauto|]. eapply Archive_within; eauto.
Qed.
Print Assumptions C29_archived.

(** The whole run: wherever it is interrupted, the mail is in the inbound or in the
    outbound. *)
Theorem C29_run : forall exec during env sort S readpkt side packets inbound tempdir unpack noread contains (st : S) fs last r,
  layout env inbound tempdir -> (forall l, Permutation (sort l) l) -> leaves_inbound exec during inbound -> packers_ok exec env contains ->
  (forall cmd fs f, IsNewPkt f = true -> fget fs f = None -> fget (fst (exec cmd fs)) f = None) ->
  (forall st c, Forall (fun o => forall n, names o n -> ~ indir inbound n /\ IsNewPkt n = false) (side st c)) -> NoDup (map fst fs) ->
  (forall st, Forall opkt_fine (packets st) /\ Forall (fun p => op_hex p <> 0) (packets st) /\ NoDup (map op_hex (packets st))) ->
  (forall n, fget fs (slashed (oe_packetcreate env) ++ n) <> None -> IsNewPkt n = true -> (length n <= 98)%nat) ->
  TossDir exec env sort readpkt side packets inbound tempdir unpack noread st fs last = Some r ->
  names_short env (run exec fs (tr_read r)) -> (tr_ok r = true -> tr_archived r = true) ->
  forall fs', interrupted exec during fs (tr_read r ++ tr_archive r ++ tr_delete r) fs' ->
    (forall n c, fget fs (slashed inbound ++ n) = Some c -> cstring n -> ~ In PATHCHAR n -> length n = 12%nat -> c <> [] ->
       kept (slashed inbound ++ n) c fs') \/
    (forall p h m, In p (packets (tr_state r)) -> op_data p = h ++ m ++ [0; 0] -> length h = 58%nat -> secured env contains (op_data p) fs').
Proof.
  intros exec during env sort S readpkt side packets inbound tempdir unpack noread contains st fs last r L Hsort Hleave Hpk Hexn Hside Hnd Hpkts Hold E Hshort Harch fs' Hint.
  assert (HL : interrupted exec during fs (tr_read r ++ tr_archive r) fs' ->
    forall n c, fget fs (slashed inbound ++ n) = Some c -> cstring n -> ~ In PATHCHAR n -> length n = 12%nat -> c <> [] -> kept (slashed inbound ++ n) c fs').
  { intros Hi. eapply C29_inbound; eauto.
    - intros st0 c. eapply Forall_impl; [|apply (Hside st0 c)]. cbv beta. intros o Ho n Hn. apply (Ho n Hn).
    - intros st0. apply Hpkts. }
  rewrite app_assoc in Hint. apply int_app in Hint as [Hint|Hint]; [left; auto|].
  destruct L as [Hpd [Hpc Hpcl] Htd [Hin Hinl] Htemp Hout].
  assert (Hpc' : dir_ok (oe_packetcreate env)) by (split; auto; lia).
  assert (Hmild : forall st c, Forall mild (side st c)).
  { intros st0 c. eapply Forall_impl; [|apply (Hside st0 c)]. cbv beta. intros o Ho. destruct o as [k v|k|a b|cmd]; cbn; auto; [apply (Ho k)|apply (Ho b)]; cbn; auto. }
  unfold TossDir in E. destruct (beforeops _ _) as [o0|] eqn:E0; [|discriminate]. cbn [obind] in E. set (fs0 := run exec fs o0) in *.
  assert (N0 : nonew (oe_packetcreate env) fs0) by (eapply before_nonew; eauto).
  destruct (tosspkts _ _ _ _ _ _ st fs0 []) as [[[[st1 o1] del1] ok1]|] eqn:E1; [|discriminate]. cbn [obind] in E.
  apply (tosspkts_mild exec sort readpkt side inbound tempdir unpack noread Hsort Hin Hinl Hmild) in E1 as [M1 D1]; auto; [|apply sort_Forall; auto; apply readdir_twelve, IsPkt_12].
  destruct (if ok1 then _ else _) as [[[[st2 o2] del2] ok2]|] eqn:E2; [|discriminate]. cbn [obind] in E.
  assert (M2 : Forall mild o2 /\ Forall (inb inbound) del2).
  { destruct ok1; [|assert (o2 = []) by congruence; assert (del2 = del1) by congruence; subst o2 del2; auto].
    eapply (tossarcs_mild exec sort readpkt side inbound tempdir unpack noread); eauto. apply sort_Forall; auto. apply readdir_twelve, IsArc_12. }
  destruct M2 as [M2 D2]. destruct (closeops env (packets st2)) as [o3|] eqn:E3; [|discriminate]. cbn [obind] in E.
  destruct ok2.
  2: { left. apply HL. apply some_eq in E. subst r. cbn [tr_delete tr_read tr_archive] in *. inversion Hint; subst. apply int_end. }
  destruct (ArchiveOutbound _ _ _ _ _) as [[[st' o4] b]|] eqn:E4; [|discriminate]. cbn [obind fst snd] in E. apply some_eq in E. subst r. cbn [tr_read tr_archive tr_delete tr_state tr_ok tr_archived] in *.
  assert (b = true) by (apply Harch; auto). subst b. right. intros p h m Hp Hd Hh.
  destruct (Hpkts st2) as (F1 & F2 & F3).
  assert (Hrun : run exec fs (o0 ++ o1 ++ o2 ++ o3) = run exec (run exec (run exec fs0 o1) o2) o3) by (unfold fs0; rewrite !run_app; reflexivity).
  set (fs3 := run exec fs (o0 ++ o1 ++ o2 ++ o3)) in *.
  assert (Hnd3 : NoDup (map fst fs3)) by (apply run_nodup; auto; apply Hpk).
  assert (N2 : nonew (oe_packetcreate env) (run exec (run exec fs0 o1) o2)) by (apply run_nonew; auto; apply run_nonew; auto).
  assert (Hna : numbers_apart env fs3) by (rewrite Hrun; eapply close_apart; eauto).
  assert (Hk : exists k, name_of p k).
  { rewrite Forall_forall in F1. destruct (F1 p Hp) as (P1 & P2 & P3). unfold name_of. rewrite finalname_eq by auto. eauto. }
  destruct Hk as (k & Hk). destruct (proj1 (Forall_forall _ _) F1 p Hp) as (P1 & P2 & P3). destruct (finalname_new exec env Hpcl _ _ _ _ P2 P3 Hk) as ((G1 & G2 & G3 & _) & _).
  assert (Hg : fget fs3 (slashed (oe_packetcreate env) ++ k) = Some (op_data p)) by (rewrite Hrun; eapply close_all; eauto).
  assert (Hs : secured env contains (op_data p) (run exec fs3 o4)).
  { rewrite Hd in *. destruct (C29_archived exec env sort contains fs3 last st' o4 Hpk Hpd Hpc' Hsort Hnd3 Hna Hshort E4 k h m G1 G2 G3 Hh Hg) as [A B]. rewrite <- B. exact A. }
  rewrite run_app in Hint. fold fs3 in Hint. destruct Hs as (f & v & S1 & S2 & S3 & S4). exists f, v. split; auto. split; auto. split; auto.
  apply Hout in S1. clear - Hint S1 S3 D2. revert Hint S3. generalize (run exec fs3 o4). induction D2 as [|d del2 D D2 IH]; intros s Hint S3; cbn [map] in Hint.
  - inversion Hint; subst; auto.
  - inversion Hint; subst; auto. eapply IH; eauto. cbn [apply]. rewrite fget_del_other; auto. intros ->. auto.
Qed.
Print Assumptions C29_run.

(** *** Examples *)
Definition yaka := AKA (N4 2 201 505 0) [] [] [].
Definition ydest := N4 2 201 5 0.
(** a system with one echomail node; [pc]: the directory for new packets, [packer]: the
    node's packer, [noopen]: the files that cannot be written *)
Definition yenv pc packer noopen := OE (lit "/fido/outbound") (lit "/fido/packets") pc [yaka] [] (NL true (fun _ => 0) (fun _ => 0)) 0 100000 [] [ON ydest packer 0] noopen 0 1000000000.
Definition ycreate := lit "/fido/create".
Definition yin := lit "/fido/inbound".
Definition ytmp := lit "/fido/temp".
Definition ybody (c : Z) := [2; 0; c; 0].
Definition ypkt (num type c : Z) := OP num type ydest (N4 2 201 505 0) (repeat 0 58 ++ ybody c ++ [0; 0]).
(** a handler that writes the packets [ps] when it has read a packet *)
Definition yread (b : bool) (c : list Z) : pktres bool := PkDone true.
Definition yside (b : bool) (c : list Z) : list fop := [].
Definition ypackets (ps : list opkt) (b : bool) : list opkt := if b then ps else [].
Definition noexec (cmd : list Z) (fs : fsys) : fsys * Z := (fs, 0).
Definition yfs := [(lit "/fido/inbound/00000001.pkt", [1; 2; 3])].
Definition yname (num type : Z) : list Z := match finalname num type ydest with Some n => n | None => [] end.

Lemma y_short dir fs n : Forall (fun e => (length (fst e) <= 98)%nat) fs -> fget fs (dir ++ n) <> None -> (length n <= 98)%nat.
Proof.
  intros F H. destruct (fget fs (dir ++ n)) as [c|] eqn:E; [|congruence]. apply fget_In in E. rewrite Forall_forall in F. apply F in E. cbn [fst] in E. rewrite app_length in E. lia.
Qed.
Lemma y_apart env n : oe_outbound env = lit "/fido/outbound" -> oe_packetdir env = lit "/fido/packets" -> oe_routes env = [] ->
  (forall x, indir (oe_packetcreate env) x -> ~ indir yin x) -> outbound_file env n -> ~ indir yin n.
Proof.
  intros Ho Hp Hr Hc [(k & E & _)|[H|(d & b & x & E & ->)]] (m & E' & I1 & I2); [|eapply Hc; [exact H|exists m; auto]|].
  - rewrite Hp in E. subst n. discriminate.
  - unfold MakeBaseName in E. destruct (oe_akas env) as [|a r]; [discriminate|]. unfold otherdomain in E. rewrite Hr in E. cbn [findroute] in E. rewrite Ho in E.
    change (stripslash (lit "/fido/outbound")) with (lit "/fido/outbound") in E. change (slashed yin) with (lit "/fido/in" ++ lit "bound/") in E'.
    destruct (zone d =? _), (point d =? 0); apply some_eq in E; subst b; discriminate.
Qed.
Lemma y_layout packer noopen : layout (yenv ycreate packer noopen) yin ytmp.
Proof.
  constructor; try (split; [lits|vm_compute; lia]).
  - intros n (k & -> & _) (m & E & _). discriminate.
  - intros n. apply y_apart; auto. intros x (k & -> & _) (m & E & _). discriminate.
Qed.
Lemma y_packers pc noopen contains : packers_ok noexec (yenv pc None noopen) contains.
Proof.
  constructor; cbn [fst noexec]; auto.
  all: intros c t arc pkt cmd fs; intros; exfalso; match goal with H : In c _, H' : on_packer c = _ |- _ => destruct H as [<-|[]]; discriminate end.
Qed.
Lemma y_leaves : leaves_inbound noexec (fun _ a b => a = b) yin.
Proof. intros cmd fs f _. split; [reflexivity|intros fs' <-; reflexivity]. Qed.

(** a netmail and an echomail packet made from one inbound packet, both sent on *)
Example C29_nonvacuous :
  let env := yenv ycreate None (fun _ => false) in
  let ps := [ypkt 1 4 65; ypkt 2 0 66] in
  layout env yin ytmp /\ leaves_inbound noexec (fun _ a b => a = b) yin /\ packers_ok noexec env (fun _ _ => False) /\ NoDup (map fst yfs) /\
  (forall st, Forall opkt_fine (ypackets ps st) /\ Forall (fun p => op_hex p <> 0) (ypackets ps st) /\ NoDup (map op_hex (ypackets ps st))) /\
  (forall n, fget yfs (slashed (oe_packetcreate env) ++ n) <> None -> IsNewPkt n = true -> (length n <= 98)%nat) /\
  exists r, TossDir noexec env (fun l => l) yread yside (ypackets ps) yin ytmp (fun _ _ => None) (fun _ => false) false yfs [[]] = Some r /\
    names_short env (run noexec yfs (tr_read r)) /\ tr_ok r = true /\ tr_archived r = true /\ tr_state r = true /\
    fget (run noexec yfs (tr_read r)) (lit "/fido/inbound/00000001.pkt") = Some [1; 2; 3] /\
    fget (run noexec yfs (tr_read r ++ tr_archive r ++ tr_delete r)) (lit "/fido/inbound/00000001.pkt") = None /\
    fget (run noexec yfs (tr_read r ++ tr_archive r ++ tr_delete r)) (lit "/fido/outbound/00c90005.cut") = Some (op_data (ypkt 1 4 65)).
Proof.
  cbv zeta. split; [apply y_layout|]. split; [apply y_leaves|]. split; [apply y_packers|]. split; [repeat constructor; cbn; tauto|].
  split; [intros []; cbn [ypackets]; (split; [repeat constructor; vm_compute; intuition discriminate|split; [repeat constructor; vm_compute; discriminate|repeat constructor; vm_compute; intuition discriminate]])|].
  split; [intros n H _; eapply y_short; [|exact H]; repeat constructor; vm_compute; lia|].
  eexists. split; [vm_compute; reflexivity|].
  split; [intros n H _ _ _; eapply y_short; [|exact H]; vm_compute; repeat constructor; lia|].
  repeat split; vm_compute; reflexivity.
Qed.

(** Finding: a packet that cannot be opened counts as read and is deleted. *)
Theorem C29_unreadable_refuted : exists env inbound tempdir noread fs r,
  layout env inbound tempdir /\ NoDup (map fst fs) /\ fget fs (slashed inbound ++ lit "00000001.pkt") = Some [1; 2; 3] /\
  TossDir noexec env (fun l => l) yread yside (ypackets []) inbound tempdir (fun _ _ => None) noread false fs [[]] = Some r /\ tr_state r = false /\
  run noexec fs (tr_read r ++ tr_archive r ++ tr_delete r) = [].
Proof.
  exists (yenv ycreate None (fun _ => false)), yin, ytmp, (fun _ => true), yfs. eexists. split; [apply y_layout|]. split; [repeat constructor; cbn; tauto|]. split; [reflexivity|].
  split; [vm_compute; reflexivity|]. split; reflexivity.
Qed.
Print Assumptions C29_unreadable_refuted.

(** Finding: with a long name of the directory for new packets (99 characters are allowed in
    the configuration) two new packets get the same name; the first is lost and the second
    is not sent, although the run ends as if all were well. *)
Definition ylong := lit "/fido/" ++ repeat 120 91.
Theorem C29_longdir_refuted : exists env p q fs r,
  dir_ok (oe_packetcreate env) /\ fget fs (slashed yin ++ lit "00000001.pkt") = Some [1; 2; 3] /\ op_data p <> op_data q /\
  TossDir noexec env (fun l => l) yread yside (ypackets [p; q]) yin ytmp (fun _ _ => None) (fun _ => false) false fs [[]] = Some r /\
  tr_ok r = true /\ tr_archived r = true /\ tr_archive r = [] /\
  exists f, run noexec fs (tr_read r ++ tr_archive r ++ tr_delete r) = [(f, op_data q)].
Proof.
  exists (yenv ylong None (fun _ => false)), (ypkt 1 4 65), (ypkt 2 0 66), yfs. eexists. split; [split; [apply cstring_app; split; [lits|repeat constructor; lia]|vm_compute; lia]|].
  split; [reflexivity|]. split; [discriminate|]. split; [vm_compute; reflexivity|]. split; [reflexivity|]. split; [reflexivity|]. split; [reflexivity|]. eexists. vm_compute. reflexivity.
Qed.
Print Assumptions C29_longdir_refuted.

(** Finding: that archiving failed is not noticed. The inbound is deleted, and the next run
    deletes the packets that were not archived. *)
Theorem C29_archive_failed_refuted : exists env p fs r r2,
  layout env yin ytmp /\ fget fs (slashed yin ++ lit "00000001.pkt") = Some [1; 2; 3] /\
  TossDir noexec env (fun l => l) yread yside (ypackets [p]) yin ytmp (fun _ _ => None) (fun _ => false) false fs [[]] = Some r /\
  tr_ok r = true /\ tr_archived r = false /\ tr_state r = true /\
  TossDir noexec env (fun l => l) yread yside (ypackets [p]) yin ytmp (fun _ _ => None) (fun _ => false) false (run noexec fs (tr_read r ++ tr_archive r ++ tr_delete r)) [[]] = Some r2 /\
  run noexec (run noexec fs (tr_read r ++ tr_archive r ++ tr_delete r)) (tr_read r2 ++ tr_archive r2 ++ tr_delete r2) = [].
Proof.
  exists (yenv ycreate None (fun _ => true)), (ypkt 1 4 65), yfs. eexists. eexists. split; [apply y_layout|]. split; [reflexivity|].
  split; [vm_compute; reflexivity|]. split; [reflexivity|]. split; [reflexivity|]. split; [reflexivity|]. split; [vm_compute; reflexivity|]. vm_compute. reflexivity.
Qed.
Print Assumptions C29_archive_failed_refuted.

(** Finding: a run that is stopped while it packs a packet of an earlier run leaves it under
    a name that no later run looks for. *)
Theorem C29_oldpacket_refuted : exists env during fs st o ok fs' f c,
  fget fs f = Some c /\ IsPktTmp f = true /\ ArchiveOutbound noexec env (fun l => l) fs [[]] = Some (st, o, ok) /\ interrupted noexec during fs o fs' /\
  (exists g, fget fs' g = Some c /\ IsPktTmp g = false /\ IsOrphan g = false /\ forall h, fget fs' h = Some c -> h = g) /\
  exists st' o', ArchiveOutbound noexec env (fun l => l) fs' [[]] = Some (st', o', true) /\ (exists g, fget (os_fs st') g = Some c /\ Forall (fun x => ~ names x g) o') /\ fget (os_fs st') (lit "/fido/outbound/00c90005.flo") = None.
Proof.
  set (fs := [(lit "/fido/packets/" ++ firstn (length (yname 1 0) - 6) (yname 1 0) ++ lit "pkttmp", op_data (ypkt 1 0 65))]).
  set (env := yenv ycreate (Some (lit "zip %a %f")) (fun _ => false)).
  destruct (ArchiveOutbound noexec env (fun l => l) fs [[]]) as [[[st o] ok]|] eqn:E; [|vm_compute in E; discriminate].
  exists env, (fun _ a b => a = b), fs, st, o, ok, (run noexec fs (firstn 3 o)), (lit "/fido/packets/" ++ firstn (length (yname 1 0) - 6) (yname 1 0) ++ lit "pkttmp"), (op_data (ypkt 1 0 65)).
  split; [vm_compute; reflexivity|]. split; [vm_compute; reflexivity|]. split; [exact E|].
  assert (Eo : o = snd (fst (st, o, ok))) by reflexivity. vm_compute in E. apply some_eq in E. rewrite <- E in Eo. cbn [fst snd] in Eo. clear E. subst o.
  split; [apply int_next, int_next, int_next, int_here|]. set (g := lit "/fido/packets/00000001.pkt"). split.
  - exists g. split; [vm_compute; reflexivity|]. split; [vm_compute; reflexivity|]. split; [vm_compute; reflexivity|]. intros h Hh. apply fget_In in Hh. vm_compute in Hh.
    destruct Hh as [Hh|[Hh|[Hh|[]]]]; try (exfalso; congruence). apply (f_equal fst) in Hh. cbn [fst] in Hh. subst h. vm_compute. reflexivity.
  - destruct (ArchiveOutbound noexec env (fun l => l) _ [[]]) as [[[st' o'] ok']|] eqn:E; [|vm_compute in E; discriminate]. vm_compute in E. apply some_eq in E.
    apply pair_equal_spec in E as [E Eok]. apply pair_equal_spec in E as [E1 E2]. subst st' o' ok'. do 2 eexists. split; [reflexivity|]. split; [|vm_compute; reflexivity].
    exists g. split; [vm_compute; reflexivity|]. repeat constructor; vm_compute; intuition discriminate.
Qed.
Print Assumptions C29_oldpacket_refuted.
