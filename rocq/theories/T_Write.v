(** C63: CrashWrite. *)
From Verif Require Import Base M_Node4D S_Node4D P_Node4D M_Mem S_Mem P_Mem M_Cfg M_Pkt S_Pkt P_Pkt M_Str S_Str P_Str M_Fs P_Fs M_Args M_Main M_Out M_Date S_Date P_Date M_Write S_Write P_Write.

(** Netmail: for every command line, a new packet is written, under a name that no file had;
    read by a system that takes packets with this password from this address, it gives one
    message, with the names, the addresses, the date and the lines that were asked for. All
    other files are as before. *)
Theorem C63_netmail : forall fuel E argv fs ds from to pfrom pto ls,
  order argv ds from to pfrom pto -> sendable pfrom pto -> (length (word ds CW_DIR) <= 180)%nat -> given ds CW_AREA = false ->
  textlines ds fs ls -> ~ In 1 (inmsg ls) ->
  fields (cw_localtime E (cw_time E)) -> 0 <= tm_year (cw_localtime E (cw_time E)) -> steady E (length fs) -> (length fs < fuel)%nat -> (forall n, cw_create E n = true) ->
  exists num pkt fs', crashwrite fuel E argv fs = Some (EXIT_OK, fs') /\
    fget fs (pktname (word ds CW_DIR) num) = None /\ fget fs' (pktname (word ds CW_DIR) num) = Some pkt /\ (forall n, n <> pktname (word ds CW_DIR) num -> fget fs' n = fget fs n) /\
    arrives pkt pfrom pto (firstn 8 (says ds CW_PASSWORD [])) (letter ds (standard (cw_localtime E (cw_time E))) from to num ls).
Proof.
  intros fuel E argv fs ds from to pfrom pto ls Ho (Hz1 & Hz2 & Hn) Hdir HA Ht H1 Hf Hy Hst Hfuel Hcr.
  destruct (run_ok fuel E argv fs ds from to pfrom pto ls Ho Hdir Ht Hst Hfuel Hcr) as (num & Hnum & Hnone & Hrun).
  exists num. do 2 eexists. split; [exact Hrun|]. split; [exact Hnone|]. split; [apply fget_put_same|]. split; [intros n Hx; apply fget_put_other; auto|].
  destruct Ho as (Hargv & Hhelp & Hp & Hm1 & Hm2 & Hm3 & Hm4). pose proof (says_good _ _ Hargv Hp) as Hsays.
  pose proof (means_valid _ _ _ _ null_valid Hm1) as Vf. pose proof (means_valid _ _ _ _ null_valid Hm2) as Vt. pose proof (means_valid _ _ _ _ Vf Hm3) as Vpf. pose proof (means_valid _ _ _ _ Vt Hm4) as Vpt.
  destruct (text_of _ _ _ Ht) as (s & Hs). pose proof (date_field E Hf Hy) as Hd. rewrite <- (make_standard _ _ Hf Hy).
  intros S cfg handle junk st Hj Hpw Hck.
  assert (Hpc : cstring (firstn 8 (says ds CW_PASSWORD []))) by (apply cstring_firstn, Hsays; constructor).
  assert (Hp0 : ~ In 0 (firstn 8 (says ds CW_PASSWORD []))) by (intros H0; unfold cstring in Hpc; rewrite Forall_forall in Hpc; specialize (Hpc 0 H0); lia).
  assert (Hp8 : (length (firstn 8 (says ds CW_PASSWORD [])) <= 8)%nat) by (rewrite firstn_length; lia).
  set (b := cw_msghdr from to (cw_attr ds) ++ MakeFidoDate (cw_localtime E) (cw_time E) ++ [0] ++ firstn 35 (says ds CW_TONAME (lit "All")) ++ [0] ++
    firstn 35 (says ds CW_FROMNAME (lit "CrashWrite")) ++ [0] ++ firstn 71 (says ds CW_SUBJECT (lit "Information")) ++ [0] ++ cw_kludges ds from to num ++ inmsg ls ++ [0]).
  assert (Epk : packet E ds from to pfrom pto num ls = mkheader (tmof (cw_localtime E (cw_time E))) pfrom pto (firstn 8 (says ds CW_PASSWORD [])) ++ b ++ [0; 0]).
  { unfold packet, b. rewrite pkthdr_eq. unfold says at 4. unfold cw_tail. rewrite HA.
    replace (match (if given ds CW_PASSWORD then Some (word ds CW_PASSWORD) else None) with Some w => firstn 8 w | None => [] end) with (firstn 8 (if given ds CW_PASSWORD then word ds CW_PASSWORD else [])) by (destruct (given ds CW_PASSWORD); reflexivity).
    repeat (rewrite <- !app_assoc; cbn [app]). reflexivity. }
  rewrite Epk. destruct (one_reads S cfg handle junk (tmof (cw_localtime E (cw_time E))) pfrom pto (firstn 8 (says ds CW_PASSWORD [])) b
    (fun m => letter ds (MakeFidoDate (cw_localtime E) (cw_time E)) from to num ls m /\ PktOrig m = pfrom /\ PktDest m = pto) st) as (m & (P1 & P2 & P3) & HR); auto.
  { intros cn h Hw. exact (letter_reads cfg handle cn h pfrom pto Hw ds from to num _ Vf Vt Hd Hsays ls s HA Hs H1). }
  exists m. auto.
Qed.
Print Assumptions C63_netmail.

(** Echomail: the same, in the area that was named, with tear line and origin line. *)
Theorem C63_echomail : forall fuel E argv fs ds from to pfrom pto ls,
  order argv ds from to pfrom pto -> sendable pfrom pto -> (length (word ds CW_DIR) <= 180)%nat -> given ds CW_AREA = true -> area_ok (word ds CW_AREA) -> zone from <> 0 ->
  textlines ds fs ls -> echotext_ok (inmsg ls) -> ~ In 13 (says ds CW_ORIGIN []) -> ~ In 10 (says ds CW_ORIGIN []) ->
  fields (cw_localtime E (cw_time E)) -> 0 <= tm_year (cw_localtime E (cw_time E)) -> steady E (length fs) -> (length fs < fuel)%nat -> (forall n, cw_create E n = true) ->
  exists num pkt fs', crashwrite fuel E argv fs = Some (EXIT_OK, fs') /\
    fget fs (pktname (word ds CW_DIR) num) = None /\ fget fs' (pktname (word ds CW_DIR) num) = Some pkt /\ (forall n, n <> pktname (word ds CW_DIR) num -> fget fs' n = fget fs n) /\
    arrives pkt pfrom pto (firstn 8 (says ds CW_PASSWORD [])) (post ds (standard (cw_localtime E (cw_time E))) from to num ls).
Proof.
  intros fuel E argv fs ds from to pfrom pto ls Ho (Hz1 & Hz2 & Hn) Hdir HA Har Hzf Ht H1 H13 H10 Hf Hy Hst Hfuel Hcr.
  destruct (run_ok fuel E argv fs ds from to pfrom pto ls Ho Hdir Ht Hst Hfuel Hcr) as (num & Hnum & Hnone & Hrun).
  exists num. do 2 eexists. split; [exact Hrun|]. split; [exact Hnone|]. split; [apply fget_put_same|]. split; [intros n Hx; apply fget_put_other; auto|].
  destruct Ho as (Hargv & Hhelp & Hp & Hm1 & Hm2 & Hm3 & Hm4). pose proof (says_good _ _ Hargv Hp) as Hsays.
  pose proof (means_valid _ _ _ _ null_valid Hm1) as Vf. pose proof (means_valid _ _ _ _ null_valid Hm2) as Vt. pose proof (means_valid _ _ _ _ Vf Hm3) as Vpf. pose proof (means_valid _ _ _ _ Vt Hm4) as Vpt.
  destruct (text_of _ _ _ Ht) as (s & Hs). pose proof (date_field E Hf Hy) as Hd. rewrite <- (make_standard _ _ Hf Hy).
  intros S cfg handle junk st Hj Hpw Hck.
  assert (Hpc : cstring (firstn 8 (says ds CW_PASSWORD []))) by (apply cstring_firstn, Hsays; constructor).
  assert (Hp0 : ~ In 0 (firstn 8 (says ds CW_PASSWORD []))) by (intros H0; unfold cstring in Hpc; rewrite Forall_forall in Hpc; specialize (Hpc 0 H0); lia).
  assert (Hp8 : (length (firstn 8 (says ds CW_PASSWORD [])) <= 8)%nat) by (rewrite firstn_length; lia).
  set (b := cw_msghdr from to (cw_attr ds) ++ MakeFidoDate (cw_localtime E) (cw_time E) ++ [0] ++ firstn 35 (says ds CW_TONAME (lit "All")) ++ [0] ++
    firstn 35 (says ds CW_FROMNAME (lit "CrashWrite")) ++ [0] ++ firstn 71 (says ds CW_SUBJECT (lit "Information")) ++ [0] ++ cw_kludges ds from to num ++ inmsg ls ++ cw_tail ds from (firstn 79 (says ds CW_ORIGIN (lit "Another user of CrashMail II"))) ++ [0]).
  assert (Epk : packet E ds from to pfrom pto num ls = mkheader (tmof (cw_localtime E (cw_time E))) pfrom pto (firstn 8 (says ds CW_PASSWORD [])) ++ b ++ [0; 0]).
  { unfold packet, b. rewrite pkthdr_eq. unfold says at 5.
    replace (match (if given ds CW_PASSWORD then Some (word ds CW_PASSWORD) else None) with Some w => firstn 8 w | None => [] end) with (firstn 8 (if given ds CW_PASSWORD then word ds CW_PASSWORD else [])) by (destruct (given ds CW_PASSWORD); reflexivity).
    repeat (rewrite <- !app_assoc; cbn [app]). reflexivity. }
  assert (Hor : forall c, (c = 13 \/ c = 10) -> ~ In c (firstn 79 (says ds CW_ORIGIN (lit "Another user of CrashMail II")))).
  { intros c Hc Hin. assert (Hin' : In c (says ds CW_ORIGIN (lit "Another user of CrashMail II"))) by (rewrite <- (firstn_skipn 79); apply in_or_app; auto).
    unfold says in Hin', H13, H10. destruct (given ds CW_ORIGIN); [destruct Hc; subst; auto|]. cbn in Hin'. destruct Hc; subst; intuition discriminate. }
  rewrite Epk. destruct (one_reads S cfg handle junk (tmof (cw_localtime E (cw_time E))) pfrom pto (firstn 8 (says ds CW_PASSWORD [])) b
    (fun m => post ds (MakeFidoDate (cw_localtime E) (cw_time E)) from to num ls m /\ PktOrig m = pfrom /\ PktDest m = pto) st) as (m & (P1 & P2 & P3) & HR); auto.
  { intros cn h Hw. apply (post_reads cfg handle cn h pfrom pto Hw ds from to num _ Vf Vt Hd Hsays ls s); auto.
    - apply cstring_firstn, Hsays, lit_cstring. reflexivity.
    - rewrite firstn_length. lia. }
  exists m. auto.
Qed.
Print Assumptions C63_echomail.

(** Whatever the command line says: the exit code is 0 or 10, files that were there before
    are not touched, at most one is new, and with code 10 there is no new one. *)
Theorem C63_files : forall fuel E argv fs c fs', crashwrite fuel E argv fs = Some (c, fs') ->
  (c = EXIT_OK \/ c = EXIT_ERROR) /\ (forall n x, fget fs n = Some x -> fget fs' n = Some x) /\ (exists nm, forall n, n <> nm -> fget fs' n = fget fs n) /\
  (c = EXIT_ERROR -> forall n, fget fs' n = fget fs n).
Proof.
  intros fuel E argv fs c fs' H.
  assert (Hsame : forall c0 : Z, (c0 = EXIT_OK \/ c0 = EXIT_ERROR) -> Some (c0, fs) = Some (c, fs') -> (c = EXIT_OK \/ c = EXIT_ERROR) /\ (forall n x, fget fs n = Some x -> fget fs' n = Some x) /\
    (exists nm, forall n, n <> nm -> fget fs' n = fget fs n) /\ (c = EXIT_ERROR -> forall n, fget fs' n = fget fs n)).
  { intros c0 Hc0 Heq. injection Heq as <- <-. split; [auto|]. split; [auto|]. split; [exists []; auto|auto]. }
  unfold crashwrite in H. destruct (match argv with w :: _ => helpword w | [] => false end); [eapply Hsame; [|exact H]; auto|].
  destruct (parseargs args_crashwrite argv) as [ds|]; [|eapply Hsame; [|exact H]; auto]. unfold cw_run in H.
  destruct (cw_addr ds CW_FROMADDR _) as [from|]; [|eapply Hsame; [|exact H]; auto]. destruct (cw_addr ds CW_TOADDR _) as [to|]; [|eapply Hsame; [|exact H]; auto].
  destruct (cw_addr ds CW_PKTFROMADDR _) as [pfrom|]; [|eapply Hsame; [|exact H]; auto]. destruct (cw_addr ds CW_PKTTOADDR _) as [pto|]; [|eapply Hsame; [|exact H]; auto].
  destruct (cw_string ds CW_FROMNAME _ _) as [fn|]; [|discriminate]. destruct (cw_string ds CW_TONAME _ _) as [tn|]; [|discriminate].
  destruct (cw_string ds CW_SUBJECT _ _) as [su|]; [|discriminate]. destruct (cw_string ds CW_ORIGIN _ _) as [og|]; [|discriminate]. cbn [obind] in H.
  destruct (cw_choose fuel E fs (word ds CW_DIR) 0) as [[num nm]|] eqn:Ec; [|discriminate]. cbn [obind] in H. apply choose_free in Ec.
  destruct (cw_create E nm); [|eapply Hsame; [|exact H]; auto]. cbv zeta in H.
  assert (Hput : forall x, Some (EXIT_OK, fput fs nm x) = Some (c, fs') -> (c = EXIT_OK \/ c = EXIT_ERROR) /\ (forall n x, fget fs n = Some x -> fget fs' n = Some x) /\
    (exists nm, forall n, n <> nm -> fget fs' n = fget fs n) /\ (c = EXIT_ERROR -> forall n, fget fs' n = fget fs n)).
  { intros x Heq. injection Heq as <- <-. split; [auto|]. split; [intros n y Hy; rewrite fget_put_other; auto; congruence|]. split; [exists nm; intros n Hx; apply fget_put_other; auto|discriminate]. }
  destruct (given ds CW_TEXT); [|eapply Hput; exact H]. destruct (streq _ nm); [discriminate|]. destruct (fget fs (word ds CW_TEXT)) as [t|]; [eapply Hput; exact H|].
  assert (Hall : forall n x, fget (osDelete (fput fs nm x) nm) n = fget fs n).
  { intros n x. destruct (streq nm n) eqn:Es; [apply streq_eq in Es; subst n; rewrite fget_del_same; auto|].
    assert (nm <> n) by (intros ->; rewrite streq_refl in Es; discriminate). rewrite fget_del_other, fget_put_other; auto. }
  assert (Hdel : forall x, Some (EXIT_ERROR, osDelete (fput fs nm x) nm) = Some (c, fs') -> c = EXIT_ERROR /\ forall n, fget fs' n = fget fs n).
  { intros x Heq. assert (E1 : EXIT_ERROR = c) by congruence. assert (E2 : osDelete (fput fs nm x) nm = fs') by congruence. split; [auto|]. intros n. rewrite <- E2. apply Hall. }
  destruct (Hdel _ H) as [-> Hs]. split; [auto|]. split; [intros n y Hy; rewrite Hs; auto|]. split; [exists []; auto|auto].
Qed.
Print Assumptions C63_files.

(** A command line that is not understood, an address that is none, a text that does not
    exist, a packet that cannot be created: exit code 10, and no file is changed. *)
Definition unfit (E : cwenv) (fs : fsys) (ds : adata) : Prop :=
  (exists j, In j [CW_FROMADDR; CW_TOADDR; CW_PKTFROMADDR; CW_PKTTOADDR] /\ given ds j = true /\ Parse4D (word ds j) = None) \/
  (forall n, cw_create E n = false) \/
  (given ds CW_TEXT = true /\ fget fs (word ds CW_TEXT) = None /\ forall num, word ds CW_TEXT <> pktname (word ds CW_DIR) num).
Theorem C63_refused : forall fuel E argv fs, Forall cstring argv -> (forall w r, argv = w :: r -> helpword w = false) -> steady E (length fs) -> (length fs < fuel)%nat ->
  (parseargs args_crashwrite argv = None \/ exists ds, parseargs args_crashwrite argv = Some ds /\ (length (word ds CW_DIR) <= 180)%nat /\ unfit E fs ds) ->
  exists fs', crashwrite fuel E argv fs = Some (EXIT_ERROR, fs') /\ forall n, fget fs' n = fget fs n.
Proof.
  intros fuel E argv fs Hargv Hhelp Hst Hfuel H.
  assert (Hex : exists fs', crashwrite fuel E argv fs = Some (EXIT_ERROR, fs')).
  { unfold crashwrite. replace (match argv with w :: _ => helpword w | [] => false end) with false by (destruct argv as [|w r]; auto; symmetry; eapply Hhelp; reflexivity).
    destruct H as [-> |(ds & Hp & Hdir & Hu)]; [eauto|]. rewrite Hp. unfold cw_run.
    pose proof (says_good _ _ Hargv Hp) as Hsays. pose proof (word_good _ _ CW_DIR Hargv Hp) as Hwd.
    destruct (choose_found fuel E fs _ Hwd Hdir Hst Hfuel) as (num & nm & Ec). destruct (choose_some _ _ _ _ Hwd Hdir _ _ _ Ec) as (Hn & -> & Hnone & _).
    destruct (cw_addr ds CW_FROMADDR _) as [from|] eqn:E1; [|eauto]. destruct (cw_addr ds CW_TOADDR _) as [to|] eqn:E2; [|eauto].
    destruct (cw_addr ds CW_PKTFROMADDR _) as [pfrom|] eqn:E3; [|eauto]. destruct (cw_addr ds CW_PKTTOADDR _) as [pto|] eqn:E4; [|eauto].
    rewrite !string_eq by (first [lia|apply Hsays, lit_cstring; reflexivity]). cbn [obind]. rewrite Ec. cbn [obind]. cbv zeta.
    destruct Hu as [(j & Hj & Hg & Hn0)|[Hcr|(Hg & Hnf & Hne)]].
    - unfold cw_addr in E1, E2, E3, E4. destruct Hj as [<-|[<-|[<-|[<-|[]]]]]; rewrite Hg in *; congruence.
    - rewrite Hcr. eauto.
    - destruct (cw_create E _); [|eauto]. rewrite Hg. destruct (streq _ _) eqn:Es; [apply streq_eq in Es; destruct (Hne num Es)|]. rewrite Hnf. eauto. }
  destruct Hex as (fs' & He). exists fs'. split; [exact He|]. apply C63_files in He as (_ & _ & _ & Hs). auto.
Qed.
Print Assumptions C63_refused.

(** ** What does not hold *)
Definition env0 : cwenv := CW 1000 (fun _ => 1000) (fun _ => TM 5 4 3 2 1 101) (fun _ => true).
Definition args0 (text : bool) (echo : bool) : list (list Z) :=
  [lit "FROMADDR"; lit "2:5/6"; lit "TOADDR"; lit "2:7/8.9"; lit "DIR"; lit "in"] ++ (if text then [lit "TEXT"; lit "t"] else []) ++ (if echo then [lit "AREA"; lit "A"] else []).
Definition val0 (o : option (list Z)) : list Z := match o with Some x => x | None => [] end.
Definition out0 (t : list Z) (echo : bool) : option (list Z) :=
  match crashwrite 5 env0 (args0 true echo) [(lit "t", t)] with Some (_, fs) => fget fs (lit "in/0003e800.pkt") | None => None end.
(** "The lines of the message are the lines of the file": not for files with carriage
    returns; after a line of 98 characters there is an empty line. *)
Theorem C63_crlf_refuted : exists a l b, length l = 98%nat /\ ~ In 13 l /\ ~ In 10 l /\ out0 (l ++ [13; 10]) false = Some (a ++ inmsg [l; []] ++ b) /\ out0 (l ++ [10]) false = Some (a ++ inmsg [l] ++ b).
Proof.
  exists (firstn (length (val0 (out0 [] false)) - 3) (val0 (out0 [] false))), (repeat 97 98), [0; 0; 0]. split; [reflexivity|].
  assert (Hr : forall c, In c (repeat 97 98) -> c = 97) by (intros c; apply repeat_spec). split; [intros H; apply Hr in H; discriminate|]. split; [intros H; apply Hr in H; discriminate|].
  split; [vm_compute; reflexivity|]. vm_compute. reflexivity.
Qed.
Print Assumptions C63_crlf_refuted.
(** "The text is followed by the tear line": not on a line of its own if the file does not end
    with a line feed. *)
Theorem C63_unfinished_refuted : exists a b, out0 (lit "hello") true = Some (a ++ lit "hello--- CrashWrite II/Linux 1.5.1" ++ [13] ++ b).
Proof.
  exists (firstn (length (val0 (out0 [] true)) - 83) (val0 (out0 [] true))), (skipn (length (val0 (out0 [] true)) - 53) (val0 (out0 [] true))). vm_compute. reflexivity.
Qed.
Print Assumptions C63_unfinished_refuted.
(** "The whole text is in the message": not what follows a NUL on its line. *)
Theorem C63_nul_refuted : exists a b, out0 (lit "one" ++ [0] ++ lit "two" ++ [10] ++ lit "three" ++ [10]) false = Some (a ++ lit "onethree" ++ [13] ++ b).
Proof.
  exists (firstn (length (val0 (out0 [] false)) - 3) (val0 (out0 [] false))), [0; 0; 0]. vm_compute. reflexivity.
Qed.
Print Assumptions C63_nul_refuted.

(** A netmail and an echomail. *)
Example C63_nonvacuous : exists ds ds', order (args0 true false) ds (N4 2 5 6 0) (N4 2 7 8 9) (N4 2 5 6 0) (N4 2 7 8 9) /\
  order (args0 true true) ds' (N4 2 5 6 0) (N4 2 7 8 9) (N4 2 5 6 0) (N4 2 7 8 9) /\ sendable (N4 2 5 6 0) (N4 2 7 8 9) /\
  given ds CW_AREA = false /\ given ds' CW_AREA = true /\ area_ok (word ds' CW_AREA) /\
  textlines ds [(lit "t", lit "Hello" ++ [13; 10] ++ lit "x" ++ [10])] [lit "Hello"; lit "x"] /\ echotext_ok (inmsg [lit "Hello"; lit "x"]) /\
  fields (cw_localtime env0 (cw_time env0)) /\ steady env0 1 /\
  unfit env0 [] ds /\ parseargs args_crashwrite [] = None.
Proof.
  assert (CS : forall l, forallb (fun c => (1 <=? c) && (c <? 256)) l = true -> cstring l) by apply lit_cstring.
  assert (CA : forall l, forallb (forallb (fun c => (1 <=? c) && (c <? 256))) l = true -> Forall cstring l).
  { intros l H. rewrite forallb_forall in H. apply Forall_forall. intros x Hx. apply CS. apply H. exact Hx. }
  do 2 eexists. split; [split; [apply CA; reflexivity|]; split; [intros w r H; injection H as <- _; reflexivity|]; split; [vm_compute; reflexivity|]; repeat split; vm_compute; reflexivity|].
  split; [split; [apply CA; reflexivity|]; split; [intros w r H; injection H as <- _; reflexivity|]; split; [vm_compute; reflexivity|]; repeat split; vm_compute; reflexivity|].
  split; [split; [discriminate|]; split; [discriminate|]; intros [H _]; discriminate|]. split; [reflexivity|]. split; [reflexivity|].
  split; [change (area_ok [65]); split; [discriminate|]; split; [apply CS; reflexivity|]; split; [cbn; intuition discriminate|]; split; [cbn; intuition discriminate|]; split; [cbn; lia|];
    split; [intros r; discriminate|reflexivity]|].
  split; [exists (lit "Hello" ++ [13; 10] ++ lit "x" ++ [10]); split; [reflexivity|]; apply (tf_crlf (lit "Hello") (lit "x" ++ [10]) [lit "x"]);
    [apply CS; reflexivity|cbn; intuition discriminate|cbn; intuition discriminate|cbn; lia|]; apply (tf_lf (lit "x") [] []); [apply CS; reflexivity|cbn; intuition discriminate|cbn; intuition discriminate|constructor]|].
  split; [split; [cbn; intuition discriminate|]; change (pieces (inmsg [lit "Hello"; lit "x"])) with [lit "Hello" ++ [13]; lit "x" ++ [13]];
    apply Forall_cons; [split; [intros (r & H); discriminate H|intros (r & H); discriminate H]|]; apply Forall_cons; [split; [intros (r & H); discriminate H|intros (r & H); discriminate H]|constructor]|].
  split; [repeat split; cbn; lia|]. split; [split; [intros; cbn; lia|]; split; cbn; lia|].
  split; [|reflexivity]. right. right. split; [reflexivity|]. split; [reflexivity|]. intros num H. apply (f_equal (@length Z)) in H. cbn in H. discriminate.
Qed.
