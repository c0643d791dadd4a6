(** Properties C35, C36 and C52: message areas in *.MSG format. *)
From Coq Require Import Sorting.Sorted.
From Verif Require Import Base M_Node4D S_Node4D P_Node4D M_Cfg M_Str P_Str M_Fs P_Fs M_Mem S_Mem P_Mem M_Pkt S_Pkt P_Pkt M_Msg S_Msg P_Msg P_MsgText P_MsgScan.

(** ** C35: importing *)

(** Whatever the state of the area and however writing turns out: the message goes to a
    number for which there is no file, all other files stay as they are, and after a
    success the new file holds header and text of the message. *)
Theorem C35_import cfg i s s' ok : length (im_junk i) = 190%nat -> msg_importfunc cfg i s = Some (s', ok) ->
  exists n data, is_u32 n /\ msgfile (ms_dir s) n = None /\
    (forall name, name <> dec n ++ lit ".msg" -> fget (ms_dir s') name = fget (ms_dir s) name) /\
    (ok = true -> msgfile (ms_dir s') n = Some data) /\
    (ok = false -> msgfile (ms_dir s') n = None \/ exists k, msgfile (ms_dir s') n = Some (firstn k data)) /\
    complete_hdr data /\ (exists rest, skipn 190 data = mmtext (im_mm i) ++ rest) /\
    (hdr_ok (im_mm i) -> fieldtext data 0 36 = From (im_mm i) /\ fieldtext data 36 36 = To (im_mm i) /\
       fieldtext data 72 72 = Subject (im_mm i) /\ fieldtext data 144 20 = DateTime (im_mm i) /\
       get16 data 170 = Cost (im_mm i) /\ attr_of data = Attr (im_mm i)).
Proof.
  intros Hj H. destruct (import_keeps _ _ _ _ _ H Hj) as (n & data & H1 & H2 & H3 & H4 & -> & H5).
  exists n, data. split; auto. split; auto. split; auto. rewrite H5.
  split; [destruct (im_w i); auto; discriminate|]. split; [destruct (im_w i); [discriminate|auto|right; eauto]|].
  split; [apply (storedmsg_attr _ _ _ _ Hj H3)|]. split; [|intros Hh; apply (stored_fields _ _ _ _ Hj Hh H3)].
  unfold storedmsg in H3. destruct (if flag _ _ && _ then mmMakeSeenByBuf (SeenBy (im_mm i)) else Some []); [|discriminate]. injection H3 as <-.
  rewrite <- (mkstored_length (im_junk i) (From (im_mm i)) (To (im_mm i)) (Subject (im_mm i)) (DateTime (im_mm i)) (words_of (im_mm i)) Hj eq_refl).
  rewrite skipn_exact. eauto.
Qed.
(** The number is always found. *)
Theorem C35_found cfg i s : is_u32 (ca_high (msg_getarea s)) -> Z.of_nat (length (ms_dir s)) < 4294967296 ->
  storedmsg cfg (im_junk i) (im_mm i) <> None -> msg_importfunc cfg i s <> None.
Proof.
  intros H1 H2 H3. unfold msg_importfunc. pose proof (nextfree_total _ _ H1 H2) as Hn.
  destruct (nextfree _ _ _) as [h|]; [|contradiction]. cbn [obind]. unfold msg_WriteMSG. destruct (storedmsg _ _ _); [|contradiction]. discriminate.
Qed.
(** A run of imports into an area that was not open yet: no file changes, and every new
    file has a number above all numbers there were. *)
Theorem C35_run cfg l dir s' : sane dir -> Forall imp_ok l -> imports cfg l (MS dir None) = Some s' ->
  (forall name n, In name (map fst dir) -> msgnum name n -> n + Z.of_nat (length l) <= 4294967295) -> Z.of_nat (length l) < 4294967295 ->
  forall name, match fget dir name with
    | Some b => fget (ms_dir s') name = Some b
    | None => forall b, fget (ms_dir s') name = Some b ->
        exists k, is_u32 k /\ name = dec k ++ lit ".msg" /\ forall name' n, In name' (map fst dir) -> msgnum name' n -> n < k
    end.
Proof.
  intros Hs Hi H Hb Hl name. destruct l as [|i l].
  { cbn in H. injection H as <-. cbn [ms_dir]. destruct (fget dir name) eqn:E; auto; congruence. }
  destruct (scan_ok dir Hs) as (S1 & S2 & S3 & S4 & S5 & S6). pose proof (high_largest dir Hs) as Hlg.
  assert (Hm : ca_high (msg_GetHighLowMsg dir) + Z.of_nat (length (i :: l)) <= 4294967295).
  { destruct (high_attained dir Hs) as [->|(f & F1 & F2)]; [cbn [length] in *; lia|]. apply (Hb f); auto. }
  cbn [imports] in H. destruct (msg_importfunc cfg i (MS dir None)) as [[s1 ok]|] eqn:E; [|discriminate]. cbn [obind fst] in H.
  inversion Hi; subst. cbn [length] in Hm.
  destruct (import_spec _ _ _ _ _ (msg_GetHighLowMsg dir) E eq_refl) as (A & B & C); auto; [lia|].
  destruct (imports_spec cfg l s1 s' (CA (ca_low (msg_GetHighLowMsg dir)) (ca_high (msg_GetHighLowMsg dir) + 1) (ca_oldhw (msg_GetHighLowMsg dir)) (ca_hw (msg_GetHighLowMsg dir)))) as (A' & B' & C'); cbn [ca_high]; auto; try lia.
  - unfold msg_getarea. rewrite A. auto.
  - rewrite A. discriminate.
  - cbn [ca_high] in C'. assert (Hle : ca_high (msg_GetHighLowMsg dir) <= ca_high (msg_GetHighLowMsg dir) + 1) by lia.
    pose proof (grow_trans _ _ _ _ _ Hle C C' name) as G. cbn [ms_dir] in G. destruct (fget dir name); auto.
    intros b Hb'. destruct (G b Hb') as (_ & k & K1 & K2 & K3). exists k. split; auto. split; auto. intros name' n N1 N2. specialize (Hlg _ _ N1 N2). lia.
Qed.

(** ** C36: scanning *)
Lemma readhw_fresh cfg dir : sane dir -> (forall b, msgfile dir 1 = Some b -> bytes b) ->
  exists c, readhw cfg (MS dir None) = MS dir (Some c) /\ ca_low c = ca_low (msg_GetHighLowMsg dir) /\
    ca_high c = ca_high (msg_GetHighLowMsg dir) /\ ca_hw c = hwmark cfg dir /\ ca_oldhw c = hwmark cfg dir /\ 0 <= hwmark cfg dir < 65536.
Proof.
  intros Hs Hb. destruct (scan_ok dir Hs) as (S1 & S2 & S3 & S4 & S5 & S6). unfold readhw. cbn zeta. change (msg_getarea (MS dir None)) with (msg_GetHighLowMsg dir).
  rewrite flag_hw, S5. cbn [ms_dir Z.eqb]. rewrite andb_true_r. unfold hwmark. destruct (Z.testbit (mc_mflags cfg) 1).
  - unfold readstored. unfold msgfile in *. fold (msgname 1) in *. destruct (fget dir (msgname 1)) as [b|].
    + destruct (Nat.ltb_spec (length b) STOREDMSG), (Nat.leb_spec 190 (length b)); unfold STOREDMSG in *; try lia.
      * eexists. split; [reflexivity|]. repeat split; auto; lia.
      * eexists. split; [reflexivity|]. cbn [ca_low ca_high ca_hw ca_oldhw]. unfold O_REPLYTO, replyto_of. rewrite P_Msg.get16_firstn by lia.
        repeat split; auto; apply (get16_u16 b 184 (Hb b eq_refl)).
    + eexists. split; [reflexivity|]. repeat split; auto; lia.
  - eexists. split; [reflexivity|]. repeat split; auto; lia.
Qed.
Lemma startnum_spec c : 2 <= ca_low c < 4294967295 -> 0 <= ca_hw c < 65536 ->
  forall n, startnum c <= n <-> ca_low c <= n /\ (ca_hw c < n).
Proof.
  intros Hl Hh n. unfold startnum. destruct (Z.eqb_spec (ca_hw c) 0) as [E|E].
  - rewrite Z.ltb_irrefl, E. lia.
  - rewrite u32_id by (unfold is_u32; lia). destruct (Z.ltb_spec (ca_hw c + 1) (ca_low c)); lia.
Qed.

(** A scan that comes to its end, with all files marked: the exported numbers are exactly
    those of the waiting messages above the high water mark (number 1 is reserved for it),
    in ascending order; the messages are what the files say; the files are marked as sent
    and nothing else changes, except that messages may have been imported meanwhile. *)
Theorem C36_scan cfg handle mark junk fuel ctrlc dir s' out :
  (forall n, mark n = WOk) -> length junk = 190%nat -> mc_tag cfg <> [] -> valid4d (mc_aka cfg) ->
  (forall n mm, Forall imp_ok (hr_imports (handle n mm))) ->
  (forall b, msgfile dir 1 = Some b -> bytes b) ->
  (forall name n, In name (map fst dir) -> msgnum name n -> n + nimports handle out < 4294967295) -> nimports handle out + 1 < 4294967295 ->
  msg_exportfunc cfg handle mark junk fuel ctrlc (MS dir None) = Some (s', out, true) ->
  StronglySorted Z.lt (map fst out) /\
  (forall n, In n (map fst out) <-> is_u32 n /\ 2 <= n /\ hwmark cfg dir < n /\ exists b, msgfile dir n = Some b /\ waiting b) /\
  (forall n mm, In (n, mm) out -> exists b, msgfile dir n = Some b /\ exported cfg false b mm) /\
  scanned cfg dir (ms_dir s') (map fst out).
Proof.
  intros Hmark Hjunk Htag Hak Himp Hb1 Hmax Hmax1 H.
  assert (Hn0 : 0 <= nimports handle out) by (clear; induction out; cbn [nimports fold_right]; [lia|]; fold (nimports handle out); lia).
  assert (Hs : sane dir) by (intros name n N1 N2; specialize (Hmax _ _ N1 N2); lia).
  destruct (scan_ok dir Hs) as (S1 & S2 & S3 & S4 & S5 & S6).
  destruct (readhw_fresh cfg dir Hs Hb1) as (c & Er & C1 & C2 & C3 & C4 & C5).
  unfold msg_exportfunc in H. cbn zeta in H. rewrite Er in H. change (msg_getarea (MS dir (Some c))) with c in H.
  assert (Hh : ca_high c + nimports handle out < 4294967295).
  { rewrite C2. destruct (high_attained dir Hs) as [->|(f & F1 & F2)]; [lia|]. apply (Hmax f); auto. }
  assert (Hst : forall n, startnum c <= n <-> ca_low c <= n /\ ca_hw c < n) by (apply startnum_spec; [rewrite C1; auto|rewrite C3; auto]).
  assert (Hst0 : 0 <= startnum c <= 4294967295).
  { pose proof (proj1 (Hst (startnum c)) ltac:(lia)). split; [lia|]. apply Hst. rewrite C1, C3. lia. }
  destruct (exploop_spec cfg handle mark junk Hmark Hjunk Htag Himp _ _ _ _ _ _ c H eq_refl) as (A & B & C & D & E & F & _); cbn [ms_dir]; auto; [rewrite C2; auto|lia|].
  split; auto. cbn [ms_dir] in *.
  assert (Hlow : forall n b, is_u32 n -> 2 <= n -> msgfile dir n = Some b -> ca_low c <= n).
  { intros n b Hn H2 Hf. rewrite C1. apply S2; auto. unfold osExists. unfold msgfile in Hf. unfold msgname. rewrite Hf. auto. }
  assert (Hiff : forall n, In n (map fst out) <-> is_u32 n /\ 2 <= n /\ hwmark cfg dir < n /\ exists b, msgfile dir n = Some b /\ waiting b).
  { intros n. split.
    - intros Hi. rewrite Forall_forall in B. destruct (B n Hi) as [B1 B2]. split; auto. apply (proj1 (C n B2 B1)) in Hi. apply Hst in B1. rewrite C1, C3 in B1. repeat split; try lia; auto.
    - intros (H1 & H2 & H3 & b & H4 & H5). apply C; eauto. apply Hst. rewrite C3. split; eauto. }
  split; auto. split.
  - intros n mm Hi. destruct (D n mm Hi) as (b & Hb & Hm). exists b. split; auto. apply made_exported; auto.
    apply (in_map fst) in Hi. apply Hiff in Hi as (_ & _ & _ & b' & Hb' & Hw). cbn [fst] in Hb'. assert (b' = b) by congruence. subst. apply Hw.
  - split; auto. intros name Hn. specialize (F name Hn). destruct (fget dir name); auto. intros b Hb. apply (F b Hb).
Qed.

(** A scan of the area: reading, exporting, and the end of the run, where the high water
    mark is written. Nothing is assumed about its success. *)
Definition scan_run (cfg : mcfg) (handle : Z -> memmsg -> hres) (mark : Z -> wres) (dir dir' : fsys) (out : list (Z * memmsg)) (ok : bool) : Prop :=
  exists junk fuel ctrlc s' junk' date w,
    length junk = 190%nat /\ length junk' = 190%nat /\ mc_tag cfg <> [] /\ (forall n mm, Forall imp_ok (hr_imports (handle n mm))) /\
    (forall b, msgfile dir 1 = Some b -> bytes b) /\
    msg_exportfunc cfg handle mark junk fuel ctrlc (MS dir None) = Some (s', out, ok) /\
    dir' = ms_dir (msg_afterfunc cfg ok junk' date w s').
(** What may happen to an area as far as message n is concerned: scans (successful or
    not), imports, and changes by others that leave message n as it is; with the numbers
    exported by the scans. *)
Inductive history (n : Z) : fsys -> list (list Z) -> fsys -> Prop :=
| h_nil dir : history n dir [] dir
| h_scan cfg handle mark dir dir1 out ok outs dir2 : scan_run cfg handle mark dir dir1 out ok -> history n dir1 outs dir2 ->
    history n dir (map fst out :: outs) dir2
| h_import cfg l dir s1 outs dir2 : Forall imp_ok l -> imports cfg l (MS dir None) = Some s1 -> history n (ms_dir s1) outs dir2 ->
    history n dir outs dir2
| h_other dir dir1 outs dir2 : msgfile dir1 n = msgfile dir n -> history n dir1 outs dir2 -> history n dir outs dir2.

Lemma after_none_waits cfg ok junk date w s n : length junk = 190%nat -> none_waits (ms_dir s) n -> none_waits (ms_dir (msg_afterfunc cfg ok junk date w s)) n.
Proof.
  intros Hj Hn. unfold msg_afterfunc. destruct (ms_open s) as [c|]; auto. destruct (ok && _ && _); auto. cbn [ms_dir].
  unfold msg_WriteHighWater. destruct (ca_hw c >? 65535); auto.
  intros b Hb Hw. unfold msgfile in Hb. fold (msgname n) in Hb.
  assert (Hp : forall k, ~ waiting (firstn k (hwmsg junk date (ca_hw c)))).
  { intros k Hx. apply prefix_waiting in Hx as (_ & Hl & _). unfold is_local, attr_of, hwmsg in Hl. change 186%nat with (164 + 2 * 11)%nat in Hl.
    rewrite mkstored_word in Hl by (auto; cbn; lia). discriminate. }
  destruct (list_eq_dec Z.eq_dec (msgname n) (msgname 1)) as [E|E].
  - rewrite E in Hb. destruct w; cbn [writenew] in Hb; rewrite ?fget_put_same in Hb.
    + injection Hb as <-. apply (Hp (length (hwmsg junk date (ca_hw c)))). rewrite firstn_all. auto.
    + apply (Hn b); auto. unfold msgfile. fold (msgname n). rewrite E. auto.
    + injection Hb as <-. apply (Hp k); auto.
  - rewrite writenew_other in Hb by auto. apply (Hn b); auto.
Qed.
Lemma scan_none_waits cfg handle mark dir dir' out ok n : is_u32 n -> scan_run cfg handle mark dir dir' out ok ->
  (none_waits dir n -> none_waits dir' n /\ ~ In n (map fst out)) /\
  (forall mm, In (n, mm) out -> hr_ok (handle n mm) = true -> mark n = WOk -> none_waits dir' n).
Proof.
  intros Hn (junk & fuel & ctrlc & s' & junk' & date & w & H1 & H2 & H3 & H4 & H5 & H6 & ->). 
  unfold msg_exportfunc in H6. cbn zeta in H6.
  assert (Ed : ms_dir (readhw cfg (MS dir None)) = dir).
  { unfold readhw. cbn zeta. destruct (flag _ _ && _); auto. destruct (readstored _ _) as [[? ?]|]; auto. }
  assert (Hst : is_u32 (startnum (msg_getarea (readhw cfg (MS dir None))))).
  { unfold startnum. set (c := msg_getarea _). assert (Hl : is_u32 (ca_low c)).
    { assert (Hl : is_u32 (ca_low (msg_GetHighLowMsg dir))).
      { unfold msg_GetHighLowMsg. assert (Hf : forall names st, is_u32 (fst st) -> is_u32 (fst (fold_left msg_scandirfunc names st))).
        { induction names as [|f r IH]; intros [lo hi] Hst; cbn [fold_left]; auto. apply IH. unfold msg_scandirfunc. destruct (ismsg f); auto. cbn [fst].
          destruct (_ && _); auto. apply u32_range. }
        specialize (Hf (map fst dir) (0, 0) ltac:(unfold is_u32; cbn; lia)). destruct (fold_left _ _ _) as [lo hi]. cbn [fst ca_low] in *.
        destruct (_ || _); auto. unfold is_u32. lia. }
      unfold c, readhw. cbn zeta. change (msg_getarea (MS dir None)) with (msg_GetHighLowMsg dir). destruct (flag _ _ && _); [|exact Hl]. destruct (readstored _ _) as [[? ?]|]; exact Hl. }
    destruct (ca_hw c =? 0); [rewrite Z.ltb_irrefl; auto|]. destruct (_ <? _); auto. apply u32_range. }
  destruct (exploop_none_waits cfg handle mark junk H1 H3 H4 n Hn _ _ _ _ _ _ _ Hst H6) as [A B]. rewrite Ed in A. split.
  - intros Hw. destruct (A Hw) as [A1 A2]. split; auto. apply after_none_waits; auto.
  - intros mm Hi Hok Hm. apply after_none_waits; auto. eapply B; eauto.
Qed.
Lemma history_none n : is_u32 n -> forall dir outs dir', history n dir outs dir' -> none_waits dir n -> none_waits dir' n /\ Forall (fun ns => ~ In n ns) outs.
Proof.
  intros Hn dir outs dir' H. induction H as [dir|cfg handle mark dir dir1 out ok outs dir2 Hs Hh IH|cfg l dir s1 outs dir2 Hi He Hh IH|dir dir1 outs dir2 He Hh IH]; intros Hw.
  - split; auto.
  - destruct (scan_none_waits _ _ _ _ _ _ _ n Hn Hs) as [A _]. destruct (A Hw) as [A1 A2]. destruct (IH A1). split; auto.
  - apply IH. eapply imports_none_waits; eauto.
  - apply IH. unfold none_waits in *. rewrite He. auto.
Qed.
(** A message that was handed on by a scan, accepted and marked, is not exported by any
    later scan, whatever happens meanwhile, as long as nobody else changes its file; this
    holds as well if the scans are broken off. *)
Theorem C36_once cfg handle mark dir dir1 out ok n mm outs dir2 :
  scan_run cfg handle mark dir dir1 out ok -> is_u32 n -> In (n, mm) out -> hr_ok (handle n mm) = true -> mark n = WOk ->
  history n dir1 outs dir2 -> Forall (fun ns => ~ In n ns) outs.
Proof.
  intros Hs Hn Hi Hok Hm Hh. apply (history_none n Hn dir1 outs dir2 Hh). eapply scan_none_waits; eauto.
Qed.
(** A message that is not waiting is never exported. *)
Theorem C36_only_waiting cfg handle mark dir dir1 out ok n : scan_run cfg handle mark dir dir1 out ok -> is_u32 n ->
  In n (map fst out) -> exists b, msgfile dir n = Some b /\ waiting b.
Proof.
  intros Hs Hn Hi. destruct (msgfile dir n) as [b|] eqn:E.
  - exists b. split; auto. destruct (Z.testbit (attr_of b) 8) eqn:E8, (Z.testbit (attr_of b) 3) eqn:E3, (le_dec 190 (length b)) as [El|El].
    3: { unfold waiting, complete_hdr, is_local, is_sent. rewrite E8, E3. auto. }
    all: exfalso; destruct (scan_none_waits _ _ _ _ _ _ _ n Hn Hs) as [A _]; apply A; auto; intros b' Hb' (W1 & W2 & W3);
      assert (b' = b) by congruence; subst b'; unfold complete_hdr, is_local, is_sent in *; congruence || (apply W3; auto) || lia.
  - exfalso. destruct (scan_none_waits _ _ _ _ _ _ _ n Hn Hs) as [A _]. apply A; auto. intros b Hb. congruence.
Qed.

(** The high water mark names an existing message after every complete scan, if it did
    before ... *)
Theorem C36_mark_exists cfg handle mark junk fuel ctrlc dir s' out junk' date w :
  (forall n, mark n = WOk) -> length junk = 190%nat -> length junk' = 190%nat -> mc_tag cfg <> [] ->
  (forall n mm, Forall imp_ok (hr_imports (handle n mm))) ->
  (forall b, msgfile dir 1 = Some b -> bytes b) ->
  (forall name n, In name (map fst dir) -> msgnum name n -> n + nimports handle out < 4294967295) -> nimports handle out + 1 < 4294967295 ->
  msg_exportfunc cfg handle mark junk fuel ctrlc (MS dir None) = Some (s', out, true) ->
  hw_exists cfg dir -> hw_exists cfg (ms_dir (msg_afterfunc cfg true junk' date w s')).
Proof.
  intros Hmark Hjunk Hjunk' Htag Himp Hb1 Hmax Hmax1 H Hhw.
  assert (Hn0 : 0 <= nimports handle out) by (clear; induction out; cbn [nimports fold_right]; [lia|]; fold (nimports handle out); lia).
  assert (Hs : sane dir) by (intros name n N1 N2; specialize (Hmax _ _ N1 N2); lia).
  destruct (scan_ok dir Hs) as (S1 & S2 & S3 & S4 & S5 & S6).
  destruct (readhw_fresh cfg dir Hs Hb1) as (c & Er & C1 & C2 & C3 & C4 & C5).
  unfold msg_exportfunc in H. cbn zeta in H. rewrite Er in H. change (msg_getarea (MS dir (Some c))) with c in H.
  assert (Hh : ca_high c + nimports handle out < 4294967295).
  { rewrite C2. destruct (high_attained dir Hs) as [->|(f & F1 & F2)]; [lia|]. apply (Hmax f); auto. }
  assert (Hst : forall n, startnum c <= n <-> ca_low c <= n /\ ca_hw c < n) by (apply startnum_spec; [rewrite C1; auto|rewrite C3; auto]).
  assert (Hst0 : 0 <= startnum c <= 4294967295).
  { pose proof (proj1 (Hst (startnum c)) ltac:(lia)). split; [lia|]. apply Hst. rewrite C1, C3. lia. }
  destruct (exploop_spec cfg handle mark junk Hmark Hjunk Htag Himp _ _ _ _ _ _ c H eq_refl) as (A & B & C & D & E & F & c' & G1 & G2 & G3 & G4 & G5 & G6); cbn [ms_dir] in *; auto; [rewrite C2; auto|lia|].
  assert (Hout : forall n, In n (map fst out) -> is_u32 n /\ 2 <= n /\ hwmark cfg dir < n).
  { intros n Hi. rewrite Forall_forall in B. destruct (B n Hi) as [B1 B2]. apply Hst in B1. rewrite C1, C3 in B1. split; auto. lia. }
  assert (Hkeep : forall n, is_u32 n -> ~ In n (map fst out) -> (n <= ca_high c \/ msgfile dir n <> None) -> msgfile (ms_dir s') n = msgfile dir n).
  { intros n Hn Hni Hle. assert (Hq : forall k, In k (map fst out) -> msgname n <> msgname k).
    { intros k Hk Hq. apply Hni. apply msgname_inj in Hq; [subst; auto|apply Hn|apply Hout in Hk; destruct Hk as [Hk _]; apply Hk]. }
    specialize (F (msgname n) Hq). unfold msgfile in *. fold (msgname n) in *. destruct (fget dir (msgname n)); auto.
    destruct (fget (ms_dir s') (msgname n)) as [b|]; auto. destruct (F b eq_refl) as (_ & k & K1 & K2 & K3). destruct Hle as [Hle|Hle]; [|congruence].
    apply msgname_inj in K3; [lia|apply Hn|apply K2]. }
  assert (H1 : msgfile (ms_dir s') 1 = msgfile dir 1).
  { apply Hkeep; [unfold is_u32; lia| |left; lia]. intros Hi. apply Hout in Hi. lia. }
  assert (Hhw' : hwmark cfg (ms_dir s') = hwmark cfg dir) by (unfold hwmark; rewrite H1; auto).
  assert (Hold : hw_exists cfg (ms_dir s')).
  { unfold hw_exists. rewrite Hhw'. destruct Hhw as [Hhw|Hhw]; auto. right. rewrite Hkeep; auto; [unfold is_u32; lia|]. intros Hi. apply Hout in Hi. lia. }
  unfold msg_afterfunc. rewrite G1. cbn [andb]. destruct (flag (mc_mflags cfg) CFG_MSG_HIGHWATER) eqn:Ef; auto. cbn [andb].
  destruct (Z.eqb_spec (ca_hw c') (ca_oldhw c')) as [Eq|Ne]; auto. cbn [negb ms_dir].
  unfold msg_WriteHighWater. destruct (Z.gtb_spec (ca_hw c') 65535) as [|Hle]; auto.
  destruct G6 as [G6|[G6 G7]]; [congruence|]. destruct (Hout _ G6) as (O1 & O2 & O3).
  assert (Hf : forall data, msgfile (fput (ms_dir s') (msgname 1) data) (ca_hw c') <> None).
  { intros data. unfold msgfile. fold (msgname (ca_hw c')). rewrite fget_put_other; [exact G7|]. intros Hq. apply msgname_inj in Hq; lia. }
  assert (Hg : forall data, msgfile (fput (ms_dir s') (msgname 1) data) 1 = Some data) by (intros; apply fget_put_same).
  assert (Hr : get16 (hwmsg junk' date (ca_hw c')) 184 = ca_hw c').
  { unfold hwmsg. change 184%nat with (164 + 2 * 10)%nat. rewrite mkstored_word by (auto; cbn; lia). cbn [nth]. apply Z.mod_small. lia. }
  assert (Hlen : length (hwmsg junk' date (ca_hw c')) = 191%nat) by (unfold hwmsg; rewrite app_length, mkstored_length; auto).
  rewrite flag_hw in Ef. unfold hw_exists, hwmark. rewrite Ef. destruct w; cbn [writenew].
  - rewrite Hg, Hlen. change (190 <=? 191)%nat with true. cbv iota. unfold replyto_of. rewrite Hr. auto.
  - unfold hw_exists, hwmark in Hold. rewrite Ef in Hold. exact Hold.
  - rewrite Hg. destruct (Nat.leb_spec 190 (length (firstn k (hwmsg junk' date (ca_hw c'))))) as [Hk|Hk]; auto.
    rewrite firstn_length in Hk. unfold replyto_of. rewrite P_Pkt.get16_firstn by lia. rewrite Hr. auto.
Qed.
(** ... and then a message that is posted with a number above all others is exported by the
    next complete scan. *)
Theorem C36_posted cfg handle mark junk fuel ctrlc dir n b s' out :
  (forall n, mark n = WOk) -> length junk = 190%nat -> mc_tag cfg <> [] -> valid4d (mc_aka cfg) ->
  (forall n mm, Forall imp_ok (hr_imports (handle n mm))) ->
  (forall b, msgfile dir 1 = Some b -> bytes b) ->
  hw_exists cfg dir -> 2 <= n -> n + nimports handle out < 4294967295 -> (forall name k, In name (map fst dir) -> msgnum name k -> k < n) -> waiting b ->
  msg_exportfunc cfg handle mark junk fuel ctrlc (MS (fput dir (dec n ++ lit ".msg") b) None) = Some (s', out, true) ->
  exists mm, In (n, mm) out /\ exported cfg false b mm.
Proof.
  intros Hmark Hjunk Htag Hak Himp Hb1 Hhw H2 Hn Hmax Hw H. fold (msgname n) in H.
  assert (Hn0 : 0 <= nimports handle out) by (clear; induction out; cbn [nimports fold_right]; [lia|]; fold (nimports handle out); lia).
  assert (H1 : msgfile (fput dir (msgname n) b) 1 = msgfile dir 1).
  { unfold msgfile. fold (msgname 1). apply fget_put_other. intros E. apply msgname_inj in E; lia. }
  assert (Hself : msgfile (fput dir (msgname n) b) n = Some b) by apply fget_put_same.
  assert (Hin : forall name k, In name (map fst (fput dir (msgname n) b)) -> msgnum name k -> k <= n).
  { intros name k Hi Hk. unfold fput in Hi. cbn [map fst In] in Hi. destruct Hi as [<-|Hi].
    - destruct Hk as [_ <-]. rewrite atol_msgname; [lia|unfold is_u32; lia].
    - apply Z.lt_le_incl, (Hmax name); auto. apply in_map_iff in Hi as (x & X1 & X2). apply filter_In in X2 as [X2 _]. apply in_map_iff. eauto. }
  destruct (C36_scan cfg handle mark junk fuel ctrlc (fput dir (msgname n) b) s' out) as (_ & B & C & _); auto.
  - rewrite H1. auto.
  - intros name k Hi Hk. specialize (Hin _ _ Hi Hk). lia.
  - lia.
  - assert (Hi : In n (map fst out)).
    { apply B. split; [unfold is_u32; lia|]. split; auto. split; [|exists b; auto].
      replace (hwmark cfg (fput dir (msgname n) b)) with (hwmark cfg dir) by (unfold hwmark; rewrite H1; auto).
      destruct Hhw as [Hhw|Hhw]; [lia|]. apply (Hmax (msgname (hwmark cfg dir))).
      - apply osExists_In. unfold osExists. unfold msgfile in Hhw. fold (msgname (hwmark cfg dir)) in Hhw. destruct (fget _ _); auto; contradiction.
      - assert (Hhr : 0 <= hwmark cfg dir < 65536).
        { unfold hwmark in *. destruct (Z.testbit (mc_mflags cfg) 1); [|lia]. destruct (msgfile dir 1) as [x|]; [|lia]. destruct (Nat.leb _ _); [|lia]. apply (get16_u16 x 184 (Hb1 x eq_refl)). }
        split; [apply ismsg_spec, ismsg_msgname; lia|]. apply atol_msgname. unfold is_u32. lia. }
    apply in_map_iff in Hi as ([k mm] & Hk & Hi). cbn [fst] in Hk. subst k. exists mm. split; auto.
    destruct (C n mm Hi) as (b' & Hb' & He). assert (b' = b) by congruence. subst. auto.
Qed.
(** The loop comes to its end when nothing is imported meanwhile: as many rounds as there are
    numbers suffice. *)
Theorem C36_ends cfg handle mark junk dir :
  (forall n mm, hr_ok (handle n mm) = true /\ hr_imports (handle n mm) = []) -> Z.testbit (mc_mflags cfg) 2 = false -> mc_tag cfg <> [] ->
  sane dir -> (forall b, msgfile dir 1 = Some b -> bytes b) ->
  (forall n b, msgfile dir n = Some b -> waiting b -> exists mm, made cfg false b mm) ->
  exists fuel s' out, msg_exportfunc cfg handle mark junk fuel (fun _ => false) (MS dir None) = Some (s', out, true).
Proof.
  intros Hh Hwb Htag Hs Hb1 Hm.
  destruct (scan_ok dir Hs) as (S1 & S2 & S3 & S4 & S5 & S6).
  destruct (readhw_fresh cfg dir Hs Hb1) as (c & Er & C1 & C2 & C3 & C4 & C5).
  unfold msg_exportfunc. cbn zeta. rewrite Er. change (msg_getarea (MS dir (Some c))) with c.
  assert (Hst : forall n, startnum c <= n <-> ca_low c <= n /\ ca_hw c < n) by (apply startnum_spec; [rewrite C1; auto|rewrite C3; auto]).
  assert (Hst0 : 0 <= startnum c <= 4294967295).
  { pose proof (proj1 (Hst (startnum c)) ltac:(lia)). split; [lia|]. apply Hst. rewrite C1, C3. lia. }
  assert (Hgen : forall k start s, ms_open s <> None -> ca_high (msg_getarea s) = ca_high c -> 0 <= start <= 4294967295 -> (Z.of_nat k = Z.max 0 (ca_high c + 1 - start)) ->
    (forall n b, start <= n -> msgfile (ms_dir s) n = Some b -> waiting b -> exists mm, made cfg false b mm) ->
    exists s' out, exploop cfg handle mark junk (S k) (fun _ => false) false start s = Some (s', out, true)).
  { induction k as [|k IH]; intros start s Ho Hc Hs0 Hk Hmm; cbn [exploop]; rewrite Hc.
    - destruct (Z.leb_spec start (ca_high c)); [lia|]. eauto.
    - destruct (Z.leb_spec start (ca_high c)); [|eauto]. 
      assert (He : exists s1 h, msg_ExportMSGNum cfg handle mark junk start false s = EOk s1 h /\ ms_open s1 <> None /\ ca_high (msg_getarea s1) = ca_high c /\
        forall name, name <> msgname start -> fget (ms_dir s1) name = fget (ms_dir s) name).
      { unfold msg_ExportMSGNum. cbn zeta. cbn [ms_dir].
        assert (Es : MS (ms_dir s) (Some (msg_getarea s)) = s) by (unfold msg_getarea; destruct s as [d [x|]]; [auto|contradiction]). rewrite Es.
        pose proof (readstored_spec (ms_dir s) start) as Hr. destruct (readstored (ms_dir s) start) as [[hdr text]|]; [|exists s, None; auto].
        destruct Hr as (b & Hb & Hcb & -> & ->). cbn [negb andb]. destruct (pending (firstn 190 b)) eqn:Ep; cbn [negb]; [|exists s, None; auto].
        apply (pending_spec b Hcb) in Ep. destruct (Hmm start b ltac:(lia) Hb Ep) as (mm & m & zs & Ex & ->). rewrite Ex.
        destruct (Hh start (set_Flags m (Z.lor (Flags m) MMFLAG_EXPORTED))) as [Hok Hno]. rewrite Hok, Hno. cbn [imports].
        destruct (marksent cfg mark junk start (firstn 190 b) zs (hr_mm (handle start (set_Flags m (Z.lor (Flags m) MMFLAG_EXPORTED)))) s) as [s1|] eqn:Em.
        - exists s1. eexists. split; [reflexivity|]. pose proof (marksent_other cfg mark junk _ _ _ _ _ _ Em) as Hoth. split; [|split; [|auto]].
          + revert Em. unfold marksent. cbn zeta. rewrite flag_wb, Hwb. destruct (_ && _); intros Em; injection Em as <-; discriminate.
          + revert Em. unfold marksent. cbn zeta. rewrite flag_wb, Hwb. destruct (_ && _); intros Em; injection Em as <-; exact Hc.
        - exfalso. revert Em. unfold marksent. cbn zeta. rewrite flag_wb, Hwb. destruct (_ && _); discriminate. }
      destruct He as (s1 & h & He & Ho1 & Hc1 & Hoth). rewrite He. rewrite u32_id by (unfold is_u32; lia).
      destruct (IH (start + 1) s1 Ho1 Hc1) as (s' & out & Eo); [lia|lia| |].
      + intros n b Hn Hb Hw. apply (Hmm n b); [lia| |auto]. unfold msgfile in *. fold (msgname n) in *. rewrite Hoth in Hb; auto. intros Eq. apply msgname_inj in Eq; lia.
      + cbn [exploop] in Eo. rewrite Eo. cbn [obind]. eauto. }
  destruct (Hgen (Z.to_nat (Z.max 0 (ca_high c + 1 - startnum c))) (startnum c) (MS dir (Some c))) as (s' & out & E); auto; try discriminate.
  - lia.
  - intros n b _. apply Hm.
  - eauto.
Qed.

(** ** C52: rescanning *)
Theorem C52_rescan cfg handle mark junk fuel ctrlc max dir s' out :
  (forall n mm, hr_imports (handle n mm) = []) -> length junk = 190%nat -> mc_tag cfg <> [] -> valid4d (mc_aka cfg) -> sane dir -> is_u32 max ->
  msg_rescanfunc cfg handle mark junk fuel ctrlc max (MS dir None) = Some (s', out, true) ->
  ms_dir s' = dir /\ StronglySorted Z.lt (map fst out) /\
  (exists high, (high = 1 \/ exists name, In name (map fst dir) /\ msgnum name high) /\ largest dir high /\
     forall n, In n (map fst out) <-> is_u32 n /\ 2 <= n /\ (max = 0 \/ high - max < n) /\ exists b, msgfile dir n = Some b /\ complete_hdr b) /\
  (forall n mm, In (n, mm) out -> exists b, msgfile dir n = Some b /\ exported cfg true b mm).
Proof.
  intros Hno Hjunk Htag Hak Hs Hmax H. assert (Himps : forall n mm, Forall imp_ok (hr_imports (handle n mm))) by (intros n mm; rewrite Hno; constructor). destruct (scan_ok dir Hs) as (S1 & S2 & S3 & S4 & S5 & S6). pose proof (low_high dir Hs) as Hlh.
  unfold msg_rescanfunc in H. cbn zeta in H. change (msg_getarea (MS dir None)) with (msg_GetHighLowMsg dir) in H. cbn [ms_dir] in H.
  set (c := msg_GetHighLowMsg dir) in *.
  set (start := if negb (max =? 0) && (u32 (u32 (ca_high c - ca_low c) + 1) >? max) then u32 (u32 (ca_high c - max) + 1) else ca_low c) in *.
  unfold is_u32 in Hmax.
  assert (Hcnt : u32 (u32 (ca_high c - ca_low c) + 1) = ca_high c - ca_low c + 1).
  { unfold u32. rewrite Zplus_mod_idemp_l. apply Z.mod_small. lia. }
  assert (Hstart : forall n, start <= n <-> ca_low c <= n /\ (max = 0 \/ ca_high c - max < n)).
  { intros n. unfold start. rewrite Hcnt. destruct (Z.eqb_spec max 0) as [->|Hne]; cbn [negb andb]; [lia|].
    destruct (Z.gtb_spec (ca_high c - ca_low c + 1) max); [|lia]. rewrite (u32_id (ca_high c - max)) by (unfold is_u32; lia). rewrite u32_id by (unfold is_u32; lia). lia. }
  assert (Hst0 : 0 <= start <= 4294967295).
  { pose proof (proj1 (Hstart start) ltac:(lia)). split; [lia|]. apply Hstart. lia. }
  destruct (rescan_loop cfg handle mark junk Hjunk Himps Hno fuel ctrlc start (MS dir (Some c)) s' out c H eq_refl S1 Hst0 ltac:(lia)) as (-> & A & B & C & D).
  cbn [ms_dir] in *. split; auto. split; auto.
  assert (Hiff : forall n, In n (map fst out) <-> is_u32 n /\ 2 <= n /\ (max = 0 \/ ca_high c - max < n) /\ exists b, msgfile dir n = Some b /\ complete_hdr b).
  { intros n. split.
    - intros Hi. rewrite Forall_forall in B. destruct (B n Hi) as [B1 B2]. split; auto. apply (proj1 (C n B2 B1)) in Hi. apply Hstart in B1. split; [lia|tauto].
    - intros (H1 & H2 & H3 & b & H4 & H5). apply C; eauto. apply Hstart. split; auto. apply S2; auto. unfold osExists. unfold msgfile in H4. unfold msgname. rewrite H4. auto. }
  split.
  - exists (ca_high c). split; [apply high_attained; auto|]. split; [apply high_largest; auto|exact Hiff].
  - intros n mm Hi. destruct (D n mm Hi) as (b & Hb & Hm). exists b. split; auto. apply made_exported; auto.
    apply (in_map fst) in Hi. apply Hiff in Hi as (_ & _ & _ & b' & Hb' & Hw). cbn [fst] in Hb'. assert (b' = b) by congruence. subst. auto.
Qed.
(** A message that was imported, and whose file has not been changed since, is handed on by a
    rescan as it came, with the RESCANNED line added. *)
Theorem C52_echo_back cfg i s s' handle mark junk fuel ctrlc max dir s2 out n data mm' :
  echo_ok (im_mm i) -> length (im_junk i) = 190%nat -> mc_net cfg = false -> mc_tag cfg <> [] -> valid4d (mc_aka cfg) ->
  msg_importfunc cfg i s = Some (s', true) -> is_u32 n -> msgfile (ms_dir s) n = None -> msgfile (ms_dir s') n = Some data ->
  (forall n mm, hr_imports (handle n mm) = []) -> length junk = 190%nat -> sane dir -> is_u32 max -> msgfile dir n = Some data ->
  msg_rescanfunc cfg handle mark junk fuel ctrlc max (MS dir None) = Some (s2, out, true) -> In (n, mm') out ->
  echo_back cfg (im_mm i) mm'.
Proof.
  intros Hok Hj Hnet Htag Hak Himp Hn Hold Hnew Hno Hjunk Hs Hmax Hdir Hr Hin. assert (Himps : forall n mm, Forall imp_ok (hr_imports (handle n mm))) by (intros k mm; rewrite Hno; constructor).
  destruct (import_keeps _ _ _ _ _ Himp Hj) as (k & d & K1 & K2 & K3 & K4 & K5 & K6).
  assert (k = n).
  { destruct (Z.eq_dec k n); auto. exfalso. unfold msgfile in *. fold (msgname n) (msgname k) in *.
    rewrite K4 in Hnew by (intros E; apply n0; apply msgname_inj in E; auto; [apply Hn|apply K1]). congruence. }
  subst k. destruct (im_w i); try discriminate. assert (d = data) by congruence. subst d.
  destruct (C52_rescan cfg handle mark junk fuel ctrlc max dir s2 out) as (_ & _ & _ & D); auto.
  destruct (D n mm' Hin) as (b & Hb & He). assert (b = data) by congruence. subst b.
  unfold exported in He. rewrite Hnet in He. destruct He as (F & Fa & _).
  destruct (stored_echo cfg true (im_junk i) (im_mm i) Hok Hj Hnet Htag Hak) as (b & m & E1 & E2 & E3 & E4 & E5 & E6). assert (b = data) by congruence. subst b.
  destruct Hok as (Hh & _). destruct (stored_fields _ _ _ _ Hj Hh K3) as (G1 & G2 & G3 & G4 & G5 & G6).
  assert (m = mm').
  { unfold msg_rescanfunc in Hr. cbn zeta in Hr. cbn [ms_dir] in Hr. change (msg_getarea (MS dir None)) with (msg_GetHighLowMsg dir) in Hr.
    destruct (scan_ok dir Hs) as (S1 & S2 & S3 & S4 & S5 & S6). pose proof (low_high dir Hs) as Hlh. set (c := msg_GetHighLowMsg dir) in *.
    assert (Hst0 : 0 <= (if negb (max =? 0) && (u32 (u32 (ca_high c - ca_low c) + 1) >? max) then u32 (u32 (ca_high c - max) + 1) else ca_low c) <= 4294967295).
    { destruct (_ && _); [|lia]. pose proof (u32_range (u32 (ca_high c - max) + 1)) as Hu. unfold is_u32 in Hu. lia. }
    destruct (rescan_loop cfg handle mark junk Hjunk Himps Hno _ _ _ _ _ _ c Hr eq_refl S1 Hst0 ltac:(lia)) as (_ & _ & _ & _ & R).
    destruct (R n mm' Hin) as (b & Hb' & Hm). assert (b = data) by (cbn [ms_dir] in Hb'; congruence). subst b.
    destruct Hm as (x & z & Ex & ->). destruct E3 as (y & z' & Ey & ->). rewrite Ex in Ey. injection Ey as -> ->. auto. }
  subst m. destruct F as (F1 & F2 & F3 & F4 & F5 & F6). split; [|auto].
  unfold came_back. rewrite F1, F2, F3, F4, F6, G1, G2, G3, G4, G5. rewrite G6 in F5. auto 8.
Qed.
Theorem C52_net_back cfg i s s' handle mark junk fuel ctrlc max dir s2 out n data mm' :
  net_ok (im_mm i) -> Area (im_mm i) = [] -> Path (im_mm i) = [] -> length (im_junk i) = 190%nat -> mc_net cfg = true -> mc_tag cfg <> [] -> valid4d (mc_aka cfg) ->
  msg_importfunc cfg i s = Some (s', true) -> is_u32 n -> msgfile (ms_dir s) n = None -> msgfile (ms_dir s') n = Some data ->
  (forall n mm, hr_imports (handle n mm) = []) -> length junk = 190%nat -> sane dir -> is_u32 max -> msgfile dir n = Some data ->
  msg_rescanfunc cfg handle mark junk fuel ctrlc max (MS dir None) = Some (s2, out, true) -> In (n, mm') out ->
  net_back cfg (im_mm i) mm'.
Proof.
  intros Hok Ha Hp Hj Hnet Htag Hak Himp Hn Hold Hnew Hno Hjunk Hs Hmax Hdir Hr Hin. assert (Himps : forall n mm, Forall imp_ok (hr_imports (handle n mm))) by (intros k mm; rewrite Hno; constructor).
  destruct (import_keeps _ _ _ _ _ Himp Hj) as (k & d & K1 & K2 & K3 & K4 & K5 & K6).
  assert (k = n).
  { destruct (Z.eq_dec k n); auto. exfalso. unfold msgfile in *. fold (msgname n) (msgname k) in *.
    rewrite K4 in Hnew by (intros E; apply n0; apply msgname_inj in E; auto; [apply Hn|apply K1]). congruence. }
  subst k. destruct (im_w i); try discriminate. assert (d = data) by congruence. subst d.
  destruct (C52_rescan cfg handle mark junk fuel ctrlc max dir s2 out) as (_ & _ & _ & D); auto.
  destruct (D n mm' Hin) as (b & Hb & He). assert (b = data) by congruence. subst b.
  unfold exported in He. rewrite Hnet in He. destruct He as (F & Fa & _).
  destruct (stored_net cfg true (im_junk i) (im_mm i) Hok Ha Hp Hj Hnet Hak) as (b & m & extra & E1 & E2 & E3 & E4 & E5). assert (b = data) by congruence. subst b.
  destruct Hok as (Hh & _). destruct (stored_fields _ _ _ _ Hj Hh K3) as (G1 & G2 & G3 & G4 & G5 & G6).
  assert (m = mm').
  { unfold msg_rescanfunc in Hr. cbn zeta in Hr. cbn [ms_dir] in Hr. change (msg_getarea (MS dir None)) with (msg_GetHighLowMsg dir) in Hr.
    destruct (scan_ok dir Hs) as (S1 & S2 & S3 & S4 & S5 & S6). pose proof (low_high dir Hs) as Hlh. set (c := msg_GetHighLowMsg dir) in *.
    assert (Hst0 : 0 <= (if negb (max =? 0) && (u32 (u32 (ca_high c - ca_low c) + 1) >? max) then u32 (u32 (ca_high c - max) + 1) else ca_low c) <= 4294967295).
    { destruct (_ && _); [|lia]. pose proof (u32_range (u32 (ca_high c - max) + 1)) as Hu. unfold is_u32 in Hu. lia. }
    destruct (rescan_loop cfg handle mark junk Hjunk Himps Hno _ _ _ _ _ _ c Hr eq_refl S1 Hst0 ltac:(lia)) as (_ & _ & _ & _ & R).
    destruct (R n mm' Hin) as (b & Hb' & Hm). assert (b = data) by (cbn [ms_dir] in Hb'; congruence). subst b.
    destruct Hm as (x & z & Ex & ->). destruct E3 as (y & z' & Ey & ->). rewrite Ex in Ey. injection Ey as -> ->. auto. }
  subst m. destruct F as (F1 & F2 & F3 & F4 & F5 & F6). split; [|eauto].
  unfold came_back. rewrite F1, F2, F3, F4, F6, G1, G2, G3, G4, G5. rewrite G6 in F5. auto 8.
Qed.

(** ** Concrete cases *)
Definition xj : list Z := repeat 7 190.
Definition xcfg (fl mfl : Z) : mcfg := MC fl mfl false (lit "A") (N4 2 203 1 0).
Definition xmm (attr : Z) (text : list Z) : memmsg :=
  MM (N4 0 0 0 0) (N4 0 0 0 0) null4d null4d null4d (lit "A") (lit "To") (lit "Fr") (lit "Su") (lit "01 Jan 99  00:00:00")
     [] [] attr 0 0 0 [text] [] [lit "203/1"].
Definition xfile (attr : Z) (text : list Z) : list Z := match storedmsg (xcfg 0 0) xj (xmm attr text) with Some b => b | None => [] end.
Definition xdir : fsys :=
  [(lit "4.msg", xfile 256 (lit "Hi" ++ [13])); (lit "3.msg", xfile 264 (lit "Old" ++ [13])); (lit "2.MSG", [1]); (lit "readme", []);
   (lit "2.msg", xfile 257 (1 :: lit "MSGID: x" ++ [13] ++ lit "Ho" ++ [13]))].
Definition xhandle (n : Z) (mm : memmsg) : hres := HR true [] mm.
Definition xall (n : Z) : wres := WOk.
Definition xnoc (n : Z) : bool := false.
Definition xnums (o : option (mst * list (Z * memmsg) * bool)) : option (list (Z * list Z) * bool) :=
  option_map (fun r => (map (fun x => (fst x, mmtext (snd x))) (snd (fst r)), snd r)) o.
Lemma xsane : sane xdir.
Proof.
  intros name n Hi [_ <-]. cbn [map fst xdir In] in Hi.
  repeat (destruct Hi as [<-|Hi]; [vm_compute; reflexivity|]). contradiction.
Qed.
Example C35_nonvacuous : exists s', msg_importfunc (xcfg 0 0) (IM (xmm 1 (lit "New" ++ [13])) xj WOk) (MS xdir None) = Some (s', true) /\
  msgfile (ms_dir s') 5 = Some (xfile 1 (lit "New" ++ [13])) /\ imp_ok (IM (xmm 1 (lit "New" ++ [13])) xj WOk) /\ sane xdir.
Proof. eexists. split; [vm_compute; reflexivity|]. split; [vm_compute; reflexivity|]. split; [split; reflexivity|apply xsane]. Qed.
(** messages 2 and 4 wait, the scan exports them, the next exports nothing, and the high
    water mark is 4 *)
Example C36_nonvacuous : exists s' out, msg_exportfunc (xcfg 65536 2) xhandle xall xj 10 xnoc (MS xdir None) = Some (s', out, true) /\
  xnums (Some (s', out, true)) = Some ([(2, 1 :: lit "MSGID: x" ++ [13] ++ TID ++ lit "Ho" ++ [13]); (4, TID ++ lit "Hi" ++ [13])], true) /\
  let dir' := ms_dir (msg_afterfunc (xcfg 65536 2) true xj (lit "01 Jan 99  00:00:00") WOk s') in
  hwmark (xcfg 65536 2) dir' = 4 /\
  xnums (msg_exportfunc (xcfg 65536 2) xhandle xall xj 10 xnoc (MS dir' None)) = Some ([], true) /\
  xnums (msg_exportfunc (xcfg 65536 2) xhandle xall xj 10 xnoc (MS (fput dir' (lit "5.msg") (xfile 256 (lit "New" ++ [13]))) None)) = Some ([(5, TID ++ lit "New" ++ [13])], true).
Proof. eexists _, _. split; [vm_compute; reflexivity|]. repeat split; vm_compute; reflexivity. Qed.
Example C36_nonvacuous_hyp : valid4d (mc_aka (xcfg 65536 2)) /\ hw_exists (xcfg 65536 2) xdir /\ waiting (xfile 256 (lit "Hi" ++ [13])) /\
  (forall b, msgfile xdir 1 = Some b -> bytes b).
Proof.
  split; [repeat split; cbn; lia|]. split; [left; reflexivity|]. split.
  - split; [unfold complete_hdr; vm_compute; lia|]. split; [reflexivity|]. unfold is_sent. vm_compute. discriminate.
  - intros b. vm_compute. discriminate.
Qed.
Example C52_nonvacuous : xnums (msg_rescanfunc (xcfg 65536 2) xhandle xall xj 10 xnoc 2 (MS xdir None)) =
    Some ([(3, rescanned_line (N4 2 203 1 0) ++ lit "Old" ++ [13]); (4, rescanned_line (N4 2 203 1 0) ++ lit "Hi" ++ [13])], true) /\
  option_map fst (xnums (msg_rescanfunc (xcfg 65536 2) xhandle xall xj 10 xnoc 0 (MS xdir None))) =
    Some [(2, 1 :: lit "MSGID: x" ++ [13] ++ rescanned_line (N4 2 203 1 0) ++ lit "Ho" ++ [13]);
          (3, rescanned_line (N4 2 203 1 0) ++ lit "Old" ++ [13]); (4, rescanned_line (N4 2 203 1 0) ++ lit "Hi" ++ [13])].
Proof. split; vm_compute; reflexivity. Qed.

(** ** Findings *)

(** With a file of the largest number the scan never ends (the number is increased past the
    largest 32 bit number and begins with 0 again), even if nothing waits. *)
Theorem C36_endless_refuted cfg handle mark junk fuel :
  msg_exportfunc cfg handle mark junk fuel (fun _ => false) (MS [(lit "4294967295.msg", [])] None) = None.
Proof.
  unfold msg_exportfunc. cbn zeta.
  set (dir := [(lit "4294967295.msg", [])]).
  assert (Hr : forall n, readstored dir n = None).
  { intros n. unfold readstored, dir. cbn [fget]. destruct (streq _ _); reflexivity. }
  assert (Hhw : readhw cfg (MS dir None) = MS dir (Some (CA 4294967295 4294967295 0 0))).
  { unfold readhw. cbn zeta. cbn [ms_dir]. rewrite Hr. replace (msg_getarea (MS dir None)) with (CA 4294967295 4294967295 0 0) by (vm_compute; reflexivity).
    destruct (flag _ _ && _); reflexivity. }
  rewrite Hhw. change (msg_getarea (MS dir (Some (CA 4294967295 4294967295 0 0)))) with (CA 4294967295 4294967295 0 0).
  assert (Hg : forall start, is_u32 start -> exploop cfg handle mark junk fuel (fun _ => false) false start (MS dir (Some (CA 4294967295 4294967295 0 0))) = None).
  { induction fuel as [|f IH]; intros start Hs; [reflexivity|]. cbn [exploop]. cbn [msg_getarea ms_open ca_high].
    unfold is_u32 in Hs. destruct (Z.leb_spec start 4294967295); [|lia]. unfold msg_ExportMSGNum. cbn zeta. cbn [ms_dir]. rewrite Hr.
    cbn [msg_getarea ms_open]. rewrite IH by apply u32_range. reflexivity. }
  apply Hg. unfold startnum, is_u32. cbn. lia.
Qed.
(** A high water mark of a message that no longer exists hides messages that are posted
    with lower numbers: message 3 is the newest and waits, and is not exported. *)
Definition xhw (h : Z) : list Z := hwmsg xj (lit "01 Jan 99  00:00:00") h.
Theorem C36_stale_mark_refuted : exists dir b, msgfile dir 3 = Some b /\ waiting b /\ largest dir 3 /\
  xnums (msg_exportfunc (xcfg 0 2) xhandle xall xj 10 xnoc (MS dir None)) = Some ([], true).
Proof.
  exists [(lit "1.msg", xhw 5); (lit "3.msg", xfile 256 (lit "Hi" ++ [13]))], (xfile 256 (lit "Hi" ++ [13])).
  split; [reflexivity|]. split; [|split].
  - split; [unfold complete_hdr; vm_compute; lia|]. split; [reflexivity|]. unfold is_sent. vm_compute. discriminate.
  - intros name n Hi [_ <-]. cbn [map fst In] in Hi. repeat (destruct Hi as [<-|Hi]; [vm_compute; discriminate|]). contradiction.
  - vm_compute. reflexivity.
Qed.
(** If the file cannot be written after the message was handed on, that goes unnoticed, and
    without a high water mark the next scan exports the message again. *)
Theorem C36_unmarked_refuted : exists dir s' out, msg_exportfunc (xcfg 0 0) xhandle (fun _ => WNoOpen) xj 10 xnoc (MS dir None) = Some (s', out, true) /\
  map fst out = [2] /\ ms_dir s' = dir /\
  option_map (fun r => map fst (snd (fst r))) (msg_exportfunc (xcfg 0 0) xhandle xall xj 10 xnoc (MS (ms_dir s') None)) = Some [2].
Proof.
  exists [(lit "2.msg", xfile 256 (lit "Hi" ++ [13]))]. eexists _, _. split; [vm_compute; reflexivity|]. repeat split; vm_compute; reflexivity.
Qed.
(** With WRITEBACK the file is written anew, and a full disk leaves nothing of the message;
    the scan reports success. *)
Theorem C36_writeback_refuted : exists dir s' out, msg_exportfunc (xcfg 0 4) xhandle (fun _ => WCut 0) xj 10 xnoc (MS dir None) = Some (s', out, true) /\
  map fst out = [2] /\ msgfile dir 2 <> None /\ msgfile (ms_dir s') 2 = Some [].
Proof.
  exists [(lit "2.msg", xfile 256 (lit "Hi" ++ [13]))]. eexists _, _. split; [vm_compute; reflexivity|]. split; [reflexivity|].
  split; [discriminate|vm_compute; reflexivity].
Qed.

Print Assumptions C35_import.
Print Assumptions C35_found.
Print Assumptions C35_run.
Print Assumptions C36_scan.
Print Assumptions C36_once.
Print Assumptions C36_only_waiting.
Print Assumptions C36_mark_exists.
Print Assumptions C36_posted.
Print Assumptions C36_ends.
Print Assumptions C52_rescan.
Print Assumptions C52_echo_back.
Print Assumptions C52_net_back.
Print Assumptions C36_endless_refuted.
Print Assumptions C36_stale_mark_refuted.
Print Assumptions C36_unmarked_refuted.
Print Assumptions C36_writeback_refuted.
