(** AreaFix: C30, C31. *)
From Verif Require Import Base M_Node4D M_Pat M_Str S_Str P_Str M_Mem M_Cfg M_Pkt M_Echo S_Echo P_Echo M_Filter M_Areafix S_Areafix P_Areafix.

(** C30: without a configured sender and the right password nothing is changed; at most a
    reply is sent. *)
Theorem C30_password : forall nl cfg rescan mm s, cstring (Subject mm) -> (forall i, ~ authorised (fs_nodes s) mm i) ->
  exists s', AreaFix nl cfg rescan mm s = Some (s', true) /\ fs_areas s' = fs_areas s /\ fs_nodes s' = fs_nodes s /\
    (fs_ev s' = fs_ev s \/ fs_ev s' = fs_ev s ++ [FReply (OrigNode mm)]).
Proof.
  intros nl cfg rescan mm s Hs Hn. unfold AreaFix. cbn [fs_areas fs_nodes fs_want fs_global fs_ev].
  destruct (findroute _ _ _) as [rt|]; [|eexists; split; [reflexivity|]; cbn; auto].
  destruct (findidx _ _ _) as [i|] eqn:F; [|eexists; split; [reflexivity|]; cbn; auto].
  apply findidx_sender in F. destruct (subject_word _ Hs) as (b & ok & rest & -> & _ & W & _).
  destruct (streqi _ _) eqn:E; [|eexists; split; [reflexivity|]; cbn; auto].
  exfalso. apply (Hn i). split; auto. destruct F as (n & F1 & F2 & F3). exists n, (cstr b). split; auto. split; auto.
  apply samei_streqi. rewrite (getan_nth _ _ _ F1) in E. exact E.
Qed.

(** The two ways to be unauthorised. *)
Theorem C30_unknown : forall nodes mm, (forall n, In n nodes -> ~ sameaddr (cn_node (an_cn n)) (OrigNode mm)) -> forall i, ~ authorised nodes mm i.
Proof. intros nodes mm H i ((n & H1 & H2 & _) & _). apply (H n); auto. eapply nth_error_In; eauto. Qed.
Theorem C30_wrong : forall nodes mm i n w, sender nodes mm i -> nth_error nodes i = Some n -> firstword (Subject mm) w -> ~ samei w (cn_afpw (an_cn n)) ->
  forall j, ~ authorised nodes mm j.
Proof.
  intros nodes mm i n w Hi Hn Hw Hne j (Hj & m & w' & M1 & M2 & M3). apply findidx_sender in Hi, Hj. assert (j = i) by congruence. subst j.
  assert (m = n) by congruence. subst m. rewrite (firstword_fun _ _ _ Hw M2) in Hne. auto.
Qed.

(** C31: whatever the request says, only the links of the sender change, and only as its
    rights allow; areas vanish or come only under the stated conditions; of the nodes only
    the sender's own settings change. *)
Theorem C31_rights : forall nl cfg rescan mm s s' r, cstring (Subject mm) -> live (fs_areas s) -> AreaFix nl cfg rescan mm s = Some (s', r) ->
  (fs_areas s' = fs_areas s /\ fs_nodes s' = fs_nodes s) \/
  exists i n, authorised (fs_nodes s) mm i /\ nth_error (fs_nodes s) i = Some n /\
    areas_ok cfg (an_cn n) i (fs_areas s) (fs_areas s') /\ nodes_ok i (fs_nodes s) (fs_nodes s').
Proof.
  intros nl cfg rescan mm s s' r Hs L. unfold AreaFix. cbn [fs_areas fs_nodes fs_want fs_global fs_ev].
  destruct (findroute _ _ _) as [rt|]; [|intros E; injection E as <- <-; auto].
  destruct (findidx _ _ _) as [i|] eqn:F; [|intros E; injection E as <- <-; auto].
  apply findidx_sender in F. destruct (subject_word _ Hs) as (b & ok & rest & -> & Hb & W & Cr).
  destruct (streqi _ _) eqn:E; [|intros E1; injection E1 as <- <-; auto].
  pose proof F as (n & F1 & F2 & F3). rewrite (getan_nth _ _ _ F1) in E.
  destruct (jbstrcpy b rest 100) as [[[b2|] got] rest2]; [|discriminate].
  set (s1 := if _ && _ then _ else _).
  destruct (chunksloop _ _ _ _ _ _) as [[s2 h]|] eqn:CL; cbn [obind]; [|discriminate].
  assert (A1 : fs_areas s1 = fs_areas s /\ fs_nodes s1 = fs_nodes s) by (unfold s1; destruct (_ && _); auto). destruct A1 as (A1 & A2).
  apply (chunksloop_ok _ _ n) in CL; [|rewrite A1; auto|exists n; rewrite A2; split; auto; apply sameelse_refl].
  destruct CL as (C1 & C2). rewrite A1 in C1. rewrite A2 in C2. intros E1. right. exists i, n.
  split. { split; auto. exists n, (cstr b). split; auto. split; auto. apply samei_streqi. auto. }
  split; auto. destruct h; injection E1 as <- <-; auto.
Qed.

(** In words that do not mention the relations: another node's links in a surviving area
    are what they were. *)
Lemma survive_in cfg c i l k a' : survive cfg c i l k -> In a' k -> exists a, In a l /\ kept c i a a'.
Proof.
  induction 1 as [|a b l l' K S IH|a l l' V S IH]; intros H; [destruct H| |].
  - destruct H as [<-|H]; [exists a; split; [left|]; auto|]. destruct (IH H) as (x & X1 & X2). exists x. split; [right|]; auto.
  - destruct (IH H) as (x & X1 & X2). exists x. split; [right|]; auto.
Qed.
Theorem C31_others : forall nl cfg rescan mm s s' r a', cstring (Subject mm) -> live (fs_areas s) -> AreaFix nl cfg rescan mm s = Some (s', r) ->
  In a' (fs_areas s') ->
  (exists a, In a (fs_areas s) /\ ar_tag (fa_ar a') = ar_tag (fa_ar a) /\
     forall t n, nth_error (fs_nodes s) (tn_node t) = Some n ->
       (forall i, sender (fs_nodes s) mm i -> tn_node t <> i) -> (In t (ar_tn (fa_ar a')) <-> In t (ar_tn (fa_ar a)))) \/
  (exists i n, authorised (fs_nodes s) mm i /\ nth_error (fs_nodes s) i = Some n /\ forwarded cfg (an_cn n) a').
Proof.
  intros nl cfg rescan mm s s' r a' Hs L E Ha. destruct (C31_rights _ _ _ _ _ _ _ Hs L E) as [(E1 & _)|(i & n & Au & Hn & (k & nw & Ek & Sv & Fw) & _)].
  - left. exists a'. rewrite E1 in Ha. split; auto. split; auto. tauto.
  - rewrite Ek in Ha. apply in_app_iff in Ha. destruct Ha as [Ha|Ha].
    + left. destruct (survive_in _ _ _ _ _ _ Sv Ha) as (a & A1 & A2). exists a. split; auto. split; [apply (k_tag _ _ _ _ A2)|].
      intros t m _ Hd. pose proof (k_others _ _ _ _ A2) as Ho. specialize (Hd i (proj1 Au)).
      assert (X : forall l, In t l <-> In t (others i l)).
      { intros l. unfold others. rewrite filter_In. apply Nat.eqb_neq in Hd. rewrite Hd. cbn. tauto. }
      rewrite (X (ar_tn (fa_ar a'))), (X (ar_tn (fa_ar a))), Ho. tauto.
    + right. exists i, n. rewrite Forall_forall in Fw. auto.
Qed.

(** The exact effect of one line: every selected area the node may attach to gets the link
    policy asks for, no other area changes. *)
Theorem C31_add : forall cfg rescan i rt pat line s, live (fs_areas s) -> addline pat line -> (wild pat \/ exists a, In a (fs_areas s) /\ selects pat a) ->
  exists s' ok, afline cfg rescan i rt line s = Some (s', ok) /\
    Forall2 (attached (an_cn (getan (fs_nodes s) i)) i pat) (fs_areas s) (fs_areas s') /\ fs_nodes s' = fs_nodes s /\
    (ok = false -> exists tag num, rescan tag num = false).
Proof. exact add_exact. Qed.
Theorem C31_remove : forall cfg rescan i rt pat line s s' ok, live (fs_areas s) -> remline pat line ->
  afline cfg rescan i rt line s = Some (s', ok) ->
  ok = true /\ fs_nodes s' = fs_nodes s /\ exists ll, Forall2 (detached cfg i pat) (fs_areas s) ll /\ fs_areas s' = concat ll.
Proof. exact rem_exact. Qed.
Theorem C31_remove_total : forall cfg rescan i rt pat line s, Forall (fun a => (length (ar_tag (fa_ar a)) <= 55)%nat) (fs_areas s) -> remline pat line ->
  exists s', afline cfg rescan i rt line s = Some (s', true).
Proof. exact rem_total. Qed.
Theorem C31_update : forall cfg rescan i rt pat line s, live (fs_areas s) -> updline pat line ->
  exists s' ok, afline cfg rescan i rt line s = Some (s', ok) /\ fs_areas s' = fs_areas s /\ fs_nodes s' = fs_nodes s.
Proof. exact upd_exact. Qed.

(** A node is made passive and active again by its own request. *)
Theorem C31_pause : forall cfg rescan i rt s n, live (fs_areas s) -> nth_error (fs_nodes s) i = Some n ->
  (exists s' m, afline cfg rescan i rt (lit "%PAUSE") s = Some (s', true) /\ nth_error (fs_nodes s') i = Some m /\
     has (cn_flags (an_cn m)) NODE_PASSIVE /\ fs_areas s' = fs_areas s) /\
  (exists s' m, afline cfg rescan i rt (lit "%RESUME") s = Some (s', true) /\ nth_error (fs_nodes s') i = Some m /\
     ~ has (cn_flags (an_cn m)) NODE_PASSIVE /\ fs_areas s' = fs_areas s).
Proof.
  intros cfg rescan i rt s n L Hn. pose proof (getan_nth _ _ _ Hn) as Hg.
  assert (Hi : Nat.ltb i (length (fs_nodes s)) = true) by (apply Nat.ltb_lt, nth_error_Some; congruence).
  split.
  - unfold afline. replace (stripleadtrail (lit "%PAUSE")) with (lit "%PAUSE") by reflexivity. cbn [lit].
    change (jbstrcpy (repeat 0 100) (lit "%PAUSE") 100) with (jbstrcpy (repeat 0 100) (lit "%PAUSE") 100).
    replace (pctcmd cfg i (lit "%PAUSE") s) with (Some (if flag (cn_flags (an_cn n)) NODE_PASSIVE then s
            else set_node s i (AN (cn_setflags (an_cn n) (Z.lor (cn_flags (an_cn n)) NODE_PASSIVE)) (an_packer n) true))) by (unfold pctcmd; rewrite Hg; reflexivity).
    unfold lit at 1. cbn [obind]. destruct (flag (cn_flags (an_cn n)) NODE_PASSIVE) eqn:F.
    + eexists _, n. split; [reflexivity|]. cbn [fs_nodes fs_areas]. split; auto. split; [apply has_flag; auto|]. apply removed_live. auto.
    + eexists _, _. split; [reflexivity|]. cbn [fs_nodes fs_areas set_node]. rewrite nth_error_setnth, Nat.eqb_refl, Hi. split; [reflexivity|]. cbn [an_cn cn_flags cn_setflags]. split; [|apply removed_live; auto].
      unfold has. rewrite Z.land_lor_distr_l, Z.land_diag. intros K. apply Z.lor_eq_0_iff in K. destruct K; discriminate.
  - unfold afline. replace (stripleadtrail (lit "%RESUME")) with (lit "%RESUME") by reflexivity.
    replace (pctcmd cfg i (lit "%RESUME") s) with (Some (if flag (cn_flags (an_cn n)) NODE_PASSIVE
            then set_node s i (AN (cn_setflags (an_cn n) (Z.ldiff (cn_flags (an_cn n)) NODE_PASSIVE)) (an_packer n) true) else s)) by (unfold pctcmd; rewrite Hg; reflexivity).
    unfold lit at 1. cbn [obind]. destruct (flag (cn_flags (an_cn n)) NODE_PASSIVE) eqn:F.
    + eexists _, _. split; [reflexivity|]. cbn [fs_nodes fs_areas set_node]. rewrite nth_error_setnth, Nat.eqb_refl, Hi. split; [reflexivity|]. cbn [an_cn cn_flags cn_setflags]. split; [|apply removed_live; auto].
      unfold has. replace (Z.land (Z.ldiff (cn_flags (an_cn n)) NODE_PASSIVE) NODE_PASSIVE) with 0; [tauto|].
      symmetry. apply Z.bits_inj'. intros k _. rewrite Z.land_spec, Z.ldiff_spec, Z.bits_0. destruct (Z.testbit _ k), (Z.testbit NODE_PASSIVE k); auto.
    + eexists _, n. split; [reflexivity|]. cbn [fs_nodes fs_areas]. split; auto. split; [apply hasnot_flag; auto|]. apply removed_live. auto.
Qed.

(** A message area is rescanned only where that is allowed and the node is attached. *)
Theorem C31_rescan : forall cfg rescan i rt raw s s' ok, live (fs_areas s) -> afline cfg rescan i rt raw s = Some (s', ok) ->
  exists e, fs_ev s' = fs_ev s ++ e /\ forall tag num, In (FRescan tag num) e -> has (fc_flags cfg) CFG_ALLOWRESCAN /\
    exists a, In a (fs_areas s') /\ ar_tag (fa_ar a) = tag /\ ar_mb (fa_ar a) = true /\ own i (ar_tn (fa_ar a)) <> [].
Proof. exact afline_rescan. Qed.

(** The lines of a text (that fits one chunk) are carried out one after the other. *)
Theorem C31_lines : forall cfg rescan i rt ls s, Forall aline ls ->
  chunksloop cfg rescan i rt [concat (map (fun l => l ++ [13]) ls)] s = runs cfg rescan i rt ls s.
Proof.
  intros cfg rescan i rt ls s F. cbn [chunksloop]. rewrite chunk_lines by auto. destruct (runs cfg rescan i rt ls s) as [[s1 h]|]; cbn [obind fst snd]; auto. destruct h; auto.
Qed.

(** ** A system with two downlinks and an uplink *)
Definition xaka : aka := AKA (N4 2 200 1 0) (lit "fidonet") [] [].
Definition xnl : nodelist := NL false (fun _ => 0) (fun _ => 0).
Definition xroutes : list route := [RT (NP PAT_PATTERN (lit "*") (lit "*") (lit "*") (lit "*")) (NP PAT_PATTERN (lit "*") (lit "*") (lit "*") (lit "*")) xaka].
Definition xn (f : Z) (pw groups ro : list Z) (flags : Z) : anode := AN (CN (N4 2 200 f 0) [] pw groups ro [] 0 flags [] null4d [] []) None false.
Definition xnodes : list anode := [xn 5 (lit "Secret") (lit "AB") (lit "C") NODE_FORWARDREQ; xn 6 [] [] [] 0; xn 9 (lit "up") [] [] 0].
Definition xa (tag : list Z) (fl : Z) (g : Z) (tn : list tossnode) (mb : bool) (ban : list nat) : farea := FA (AR tag AREATYPE_ECHOMAIL fl g xaka tn mb) ban false.
Definition xareas : list farea :=
  [xa (lit "A.ONE") 0 65 [TN 1 0] true []; xa (lit "B.MUST") AREA_MANDATORY 66 [TN 0 0] true []; xa (lit "C.READ") 0 67 [] true [];
   xa (lit "D.CLOSED") 0 68 [] true []; xa (lit "E.BANNED") 0 65 [] true [0%nat]; xa (lit "F.OLD") 0 65 [TN 0 0; TN 2 TOSSNODE_FEED] false []].
Definition xcfg (fl : Z) : afcfg := AFC fl [xaka] xroutes [] [AL 2 AREALIST_FORWARD 65 (Some [lit "Y.OTHER some text"; lit "X.NEW a new area"])].
Definition cr (l : list Z) : list Z := l ++ [13].
Definition xreq (subj : list Z) (chunks : list (list Z)) : memmsg := set_Subject (set_OrigNode (set_TextChunks mm0 (rev chunks)) (N4 2 200 5 0)) subj.
Definition xtext : list Z :=
  cr (lit "+a.one") ++ cr (lit "-B.MUST") ++ cr (lit "C.READ") ++ cr (lit "+D.CLOSED") ++ cr (lit "+E.BANNED") ++ cr (lit "-F.OLD") ++ cr (lit "X.NEW") ++
  cr (lit "+A.ONE, r=10") ++ cr (lit "%PAUSE").
Definition xrun (fl : Z) (mm : memmsg) (areas : list farea) (nodes : list anode) : option (afst * bool) :=
  AreaFix xnl (xcfg fl) (fun _ _ => true) mm (AFS areas nodes [] false []).
Definition view (s : afst) : list (list Z * list (nat * Z)) := map (fun a => (ar_tag (fa_ar a), map (fun t => (tn_node t, tn_flags t)) (ar_tn (fa_ar a)))) (fs_areas s).

(** the request is allowed and has all the effects described *)
Example C31_nonvacuous :
  option_map (fun x => (view (fst x), map (fun n => cn_flags (an_cn n)) (fs_nodes (fst x)), fs_ev (fst x), snd x))
    (xrun CFG_AREAFIXREMOVE (xreq (lit " secret -q") [xtext]) xareas xnodes) =
  Some ([(lit "A.ONE", [(1%nat, 0); (0%nat, 0)]); (lit "B.MUST", [(0%nat, 0)]); (lit "C.READ", [(0%nat, TOSSNODE_READONLY)]); (lit "D.CLOSED", []); (lit "E.BANNED", []);
         (lit "X.NEW", [(2%nat, TOSSNODE_FEED); (0%nat, 0)])],
        [NODE_FORWARDREQ + NODE_PASSIVE; 0; 0], [FRemote 2 (lit "-F.OLD"); FRemote 2 (lit "X.NEW"); FReply (N4 2 200 5 0); FSend 1], true).
Proof. vm_compute. reflexivity. Qed.
Example C31_nonvacuous_hyps : cstring (Subject (xreq (lit " secret -q") [xtext])) /\ live xareas /\ addline (lit "A.*") (lit "+A.*, r=5") /\ remline (lit "F.OLD") (lit "-F.OLD") /\
  updline (lit "A.ONE") (lit "=A.ONE,R=3") /\ Forall aline [lit "+A.ONE"; lit "-F.OLD"; []] /\ authorised xnodes (xreq (lit " secret -q") [xtext]) 0.
Proof.
  assert (P : forall l, forallb (fun c => (33 <=? c) && (c <? 128) && negb (c =? 44)) l = true -> plainname l).
  { intros l H. rewrite forallb_forall in H. apply Forall_forall. intros x Hx. specialize (H x Hx). lia. }
  split; [cbn [Subject xreq set_Subject]; litc; repeat (apply Forall_cons; [lia|]); constructor|].
  split; [unfold xareas; repeat (apply Forall_cons; [discriminate|]); constructor|].
  split. { split; [apply P; reflexivity|]. exists (lit ", r=5"). split; [|left; reflexivity]. right. exists (lit " r=5"). split; [reflexivity|]. litc. cbn [In]. lia. }
  split. { split; [apply P; reflexivity|]. exists []. split; [left|]; reflexivity. }
  split. { split; [apply P; reflexivity|]. exists (lit ",R=3"). split; [|reflexivity]. right. exists (lit "R=3"). split; [reflexivity|]. litc. cbn [In]. lia. }
  split.
  { assert (Q : forall l, forallb (fun c => negb (c =? 0) && negb (c =? 13) && negb (c =? 10)) l = true -> Nat.ltb (length l) 100 = true -> streq (firstn 3 l) (lit "---") = false -> aline l).
    { intros l H1 H2 H3. split; [apply Nat.ltb_lt; auto|]. split.
      - rewrite forallb_forall in H1. apply Forall_forall. intros x Hx. specialize (H1 x Hx). lia.
      - intros K. apply streq_true in K. congruence. }
    repeat (apply Forall_cons; [apply Q; reflexivity|]). constructor. }
  split. { eexists. split; [reflexivity|]. split; [unfold sameaddr; cbn; auto|]. intros j m Hj. lia. }
  eexists _, (lit "secret"). split; [reflexivity|]. split; [|reflexivity].
  change (firstword ([32] ++ lit "secret -q") (firstn 99 (lit "secret"))). apply (fw_plain [32] _ (lit "secret") (lit " -q")).
  - constructor; auto.
  - intros c r E. vm_compute in E. injection E as <- <-. lia.
  - litc. repeat (apply tok_chr; [unfold stop_plain; lia|lia|]). apply tok_stop. unfold stop_plain. auto.
Qed.
(** the same request with a wrong password *)
Example C30_nonvacuous : option_map (fun x => (view (fst x), map (fun n => cn_flags (an_cn n)) (fs_nodes (fst x)), fs_ev (fst x), snd x))
    (xrun CFG_AREAFIXREMOVE (xreq (lit "wrong") [xtext]) xareas xnodes) =
  Some (view (AFS xareas [] [] false []), [NODE_FORWARDREQ; 0; 0], [FReply (N4 2 200 5 0)], true) /\ forall i, ~ authorised xnodes (xreq (lit "wrong") [xtext]) i.
Proof.
  split; [vm_compute; reflexivity|]. apply (C30_wrong _ _ 0 (xn 5 (lit "Secret") (lit "AB") (lit "C") NODE_FORWARDREQ) (lit "wrong")).
  - eexists. split; [reflexivity|]. split; [unfold sameaddr; cbn; auto|]. intros j m Hj. lia.
  - reflexivity.
  - change (firstword ([] ++ lit "wrong") (firstn 99 (lit "wrong"))). apply (fw_plain [] _ (lit "wrong") []).
    + constructor.
    + intros c r E. vm_compute in E. injection E as <- <-. lia.
    + litc. repeat (apply tok_chr; [unfold stop_plain; lia|lia|]). apply tok_eof.
  - vm_compute. discriminate.
Qed.

(** Without an AreaFix password an empty subject is enough. *)
Theorem C30_no_password : exists s', xrun 0 (set_OrigNode (xreq [] [cr (lit "%PAUSE")]) (N4 2 200 6 0)) xareas xnodes = Some (s', true) /\ map (fun n => cn_flags (an_cn n)) (fs_nodes s') = [NODE_FORWARDREQ; NODE_PASSIVE; 0].
Proof. eexists. split; reflexivity. Qed.

(** An area got by a forwarded request ignores the read-only setting of the default area:
    the new area says that links are read-only, the link is not. *)
Theorem C31_readonly_refuted : exists cfg mm s s' a t c, AreaFix xnl cfg (fun _ _ => true) mm s = Some (s', true) /\ In a (fs_areas s') /\
  nth_error (map an_cn (fs_nodes s)) 0 = Some c /\ authorised (fs_nodes s) mm 0 /\ own 0 (ar_tn (fa_ar a)) = [t] /\ readonly_for c (fa_ar a) /\ tn_flags t = 0.
Proof.
  set (def := FA (AR (lit "DEFAULT") AREATYPE_DEFAULT AREA_DEFREADONLY 0 xaka [] true) [] false).
  set (s := AFS [def] xnodes [] false []).
  set (s' := match AreaFix xnl (xcfg 0) (fun _ _ => true) (xreq (lit "secret") [cr (lit "X.NEW")]) s with Some (x, _) => x | None => s end).
  set (a := nth 1 (fs_areas s') def).
  exists (xcfg 0), (xreq (lit "secret") [cr (lit "X.NEW")]), s, s', a, (TN 0 0), (an_cn (xn 5 (lit "Secret") (lit "AB") (lit "C") NODE_FORWARDREQ)).
  split; [vm_compute; reflexivity|]. split; [unfold a; apply nth_In; vm_compute; lia|]. split; [reflexivity|]. split.
  { split. { eexists. split; [reflexivity|]. split; [unfold sameaddr; cbn; auto|]. intros j m Hj. lia. }
    eexists _, (lit "secret"). split; [reflexivity|]. split; [|reflexivity].
    change (firstword ([] ++ lit "secret") (firstn 99 (lit "secret"))). apply (fw_plain [] _ (lit "secret") []).
    + constructor.
    + intros c r E. vm_compute in E. injection E as <- <-. lia.
    + litc. repeat (apply tok_chr; [unfold stop_plain; lia|lia|]). apply tok_eof. }
  split; [vm_compute; reflexivity|]. split; [left; vm_compute; discriminate|reflexivity].
Qed.

(** A line of 100 or more characters writes past the line buffer. *)
Theorem C31_long_refuted : forall cfg rescan i rt l rest s, (100 <= length l)%nat -> Forall (fun c => c <> 13 /\ c <> 10) l ->
  chunksloop cfg rescan i rt [l ++ rest] s = None.
Proof.
  intros cfg rescan i rt l rest s H F. assert (U : forall n l r, (n <= length l)%nat -> Forall (fun c => c <> 13 /\ c <> 10) l -> length (fst (upto n (l ++ r))) = n).
  { induction n as [|n IH]; intros [|c x] r Hl Hf; cbn [length] in Hl; try lia; cbn [upto app fst length]; auto. inversion Hf; subst.
    replace ((c =? 13) || (c =? 10)) with false by lia. specialize (IH x r ltac:(lia) H3). destruct (upto n (x ++ r)) as [d e]. cbn in *. lia. }
  cbn [chunksloop]. destruct l as [|c x]; [cbn in H; lia|]. cbn [app length]. unfold chunkloop; fold chunkloop.
  specialize (U 100%nat (c :: x) rest H F). cbn [app] in U. destruct (upto 100 (c :: x ++ rest)) as [d e]. cbn [fst] in U. rewrite U. reflexivity.
Qed.

(** A command that two chunks of the text share is taken for two commands: the node is
    detached from an area its request does not name. *)
Theorem C31_split_refuted : exists text1 text2 s, text1 ++ text2 = cr (lit "-A.ONE.TWO") /\ 
  xrun 0 (xreq (lit "secret") [text1; text2]) [xa (lit "A.ONE") 0 65 [TN 0 0] true []] xnodes = Some (s, true) /\ view s = [(lit "A.ONE", [])] /\
  option_map (fun x => view (fst x)) (xrun 0 (xreq (lit "secret") [text1 ++ text2]) [xa (lit "A.ONE") 0 65 [TN 0 0] true []] xnodes) = Some [(lit "A.ONE", [(0%nat, 0)])].
Proof. eexists (lit "-A.ONE"), (cr (lit ".TWO")), _. split; [reflexivity|]. split; [reflexivity|]. split; reflexivity. Qed.

(** Removing an area of a long name for its feed overruns the buffer of the notice. *)
Theorem C31_notice_refuted : exists tag, (length tag < 80)%nat /\ 
  xrun CFG_REMOVEWHENFEED (xreq (lit "secret") [cr (lit "-*")]) [xa tag 0 65 [TN 0 TOSSNODE_FEED; TN 1 0] true []] [xn 5 (lit "Secret") (lit "AB") [] 0; xn 6 [] [] [] NODE_SENDTEXT] = None.
Proof. exists (repeat 65 60). split; [cbn; lia|]. vm_compute. reflexivity. Qed.

Print Assumptions C30_password.
Print Assumptions C30_unknown.
Print Assumptions C30_wrong.
Print Assumptions C31_rights.
Print Assumptions C31_others.
Print Assumptions C31_add.
Print Assumptions C31_remove.
Print Assumptions C31_remove_total.
Print Assumptions C31_update.
Print Assumptions C31_pause.
Print Assumptions C31_rescan.
Print Assumptions C31_lines.
Print Assumptions C31_readonly_refuted.
Print Assumptions C31_long_refuted.
Print Assumptions C31_split_refuted.
Print Assumptions C31_notice_refuted.
