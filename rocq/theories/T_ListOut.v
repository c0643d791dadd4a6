(** C66: CrashListOut. *)
From Coq Require Import Permutation Sorted.
From Verif Require Import Base M_Node4D S_Node4D P_Node4D M_Mem M_Str S_Str P_Str M_Cfg M_Args M_Main M_Out P_Out M_Date M_Pat S_Pat P_Pat M_Filter M_Upd P_Args S_Packer M_AfList S_AfList P_AfList M_ListOut S_ListOut P_ListOut.

(** The list has exactly what waits in the outbound directory for the nodes that were asked
    for, with files of points in their own directories, each file once, in the order of the
    addresses. Each is shown with type, address, date and what it contains; the last line has
    the sums. *)
Lemma waits_solid E out z pat e : fine E out -> good e -> waits (lo_dirs E) (lo_stat E) out z pat (toitem e) -> solid e.
Proof.
  intros (Ho & Lo & Hd & Hs & _) G W. unfold solid. split; auto. unfold toitem in W.
  remember (IT (fe_node e) (kindof (fe_type e) (fe_flow e)) (fe_file e) (fe_dir e) (fe_size e) (fe_date e)) as it.
  destruct W as [names f b k v s d A B (x & C & C1 & C2) D H I|names sub dir db f b k v q s d A B (x & C & C1 & C2) D H I (x' & J & J1 & J2) K L M]; injection Heqit as Q1 Q2 Q3 Q4 Q5 Q6.
  - destruct (ending_dot _ _ C2) as (_ & _ & Lx). pose proof (Hd _ _ A) as X. rewrite Forall_forall in X. destruct (X _ B) as [Y _]. rewrite <- Q3, <- Q4, <- Q5.
    split; auto. split; [rewrite C, app_length; lia|]. split; auto. split; [lia|]. eapply Hs; eauto.
  - destruct (pnt_dot _ C2) as (_ & _ & Lx). destruct (ending_dot _ _ J2) as (_ & _ & Lx'). pose proof (Hd _ _ A) as X. rewrite Forall_forall in X. destruct (X _ B) as [Y _].
    pose proof (Hd _ _ H) as X'. rewrite Forall_forall in X'. destruct (X' _ I) as [Y' _]. rewrite <- Q3, <- Q4, <- Q5.
    pose proof (joinpath_length dir f) as L1. pose proof (joinpath_length out dir) as L2. assert (length dir = 12%nat) by (rewrite C, app_length; lia). assert (length f = 12%nat) by (rewrite J, app_length; lia).
    split; [apply joinpath_cstring; auto|]. split; [lia|]. split; [apply joinpath_cstring; auto|]. split; [lia|]. eapply Hs; eauto.
Qed.
Lemma waits_zone dirs stat out z pat it : waits dirs stat out z pat it -> zone (it_node it) = z.
Proof. destruct 1; reflexivity. Qed.
Theorem C66_list : forall E out cz pat verbose names, sorts (lo_qsort E) -> fine E out -> lo_dirs E out = Some names ->
  exists items rs,
    (forall it, In it items <-> waits (lo_dirs E) (lo_stat E) out (u16 cz) pat it) /\
    ((forall d ns, lo_dirs E d = Some ns -> NoDup ns) -> NoDup (map it_name items)) /\
    StronglySorted (fun a b => addr_le (it_node a) (it_node b)) items /\
    Forall2 (fun it r => shows E out verbose it (fst r) (snd r)) items rs /\
    lo_list E out cz pat verbose =
      Some (LList (heading ++ match items with
                              | [] => lit "Outbound directory is empty." ++ [10]
                              | _ => concat (map fst rs) ++ closing verbose (map snd rs)
                              end)).
Proof.
  intros E out cz pat verbose names Hq F Hn. destruct (all_ok E out cz pat F names Hn) as (ls & Els & G & On & W).
  set (es := concat ls) in *.
  assert (Hz : forall e, In e es -> zone (fe_node e) = u16 cz).
  { intros e He. assert (X : In (toitem e) (map toitem es)) by (apply in_map; auto). apply W in X. apply waits_zone in X. exact X. }
  destruct (Hq sortcompare es) as [P S].
  { intros a b Ha Hb. unfold sortcompare. rewrite (compare_antisym (fe_node b)). lia. }
  { intros a b c Ha Hb Hc. unfold sortcompare. rewrite !compare_le by (rewrite !Hz; auto). apply addr_le_trans. }
  set (es' := lo_qsort E sortcompare es) in *.
  assert (Hin : forall e, In e es' <-> In e es) by (intros e; split; apply Permutation_in; auto using Permutation_sym).
  assert (Hso : Forall solid es').
  { rewrite Forall_forall. intros e He. apply Hin in He. apply (waits_solid E out (u16 cz) pat); auto; [rewrite Forall_forall in G; auto|]. apply W, in_map, He. }
  destruct (rows_ok E out verbose F es' Hso (TOT 0 0 0)) as (rs & R1 & R2); [repeat split; cbn; lia|].
  exists (map toitem es'), rs. split; [|split; [|split; [|split]]].
  - intros it. rewrite <- W, !in_map_iff. split; intros (e & A & B); exists e; split; auto; apply Hin; auto.
  - intros ND. specialize (On ND). rewrite map_map. change (map (fun e => it_name (toitem e)) es') with (map fe_file es').
    eapply Permutation_NoDup; [|exact On]. apply Permutation_map, Permutation_sym, P.
  - assert (Hz' : forall e, In e es' -> zone (fe_node e) = u16 cz) by (intros e He; apply Hz, Hin, He). clearbody es'. clear -S Hz'. induction S as [|e es0 S IH Fe]; cbn [map]; constructor.
    + apply IH. intros; apply Hz'; right; auto.
    + rewrite Forall_forall in *. intros it Hit. apply in_map_iff in Hit as (e' & <- & He'). specialize (Fe e' He'). cbn. apply compare_le; auto. rewrite !Hz'; auto; [right; auto|left; auto].
  - exact R1.
  - unfold lo_list. rewrite Hn, Els. cbn [obind]. fold es es'. rewrite R2. cbn [obind fst snd]. do 2 f_equal. unfold heading, line. rewrite !padr_column, padl_right. repeat (rewrite <- !app_assoc; cbn [app]). do 9 f_equal.
    destruct es' as [|e es'']; [reflexivity|]. cbn [map]. f_equal. unfold closing. rewrite fold_plus by (repeat split; cbn; lia). cbn [t_files t_bytes t_reqs]. rewrite !Z.add_0_l, lo_unit_mega by apply u32_is.
    repeat (rewrite <- !app_assoc; cbn [app]). reflexivity.
Qed.
Print Assumptions C66_list.

(** A command line: directory, zone, pattern, VERBOSE; what is missing comes from the
    environment. *)
Lemma key_none tbl w : Forall (fun a => match a_name a with Some k => map tolower w <> map tolower k | None => True end) tbl -> keyfind tbl w = None.
Proof.
  induction 1 as [|a tbl Ha _ IH]; [reflexivity|]. cbn [keyfind]. rewrite IH. destruct (a_name a) as [k|]; [|reflexivity].
  destruct (streqi w k) eqn:S; [|reflexivity]. apply streqi_spec in S. contradiction.
Qed.
Lemma nokey_none w : nokey w -> keyfind args_crashlistout w = None.
Proof. intros [H _]. apply key_none. unfold args_crashlistout. repeat (constructor; [cbn; apply H; cbn [In]; tauto|]). constructor. Qed.
Lemma nokey_help w : nokey w -> helpword w = false.
Proof.
  intros [_ H]. unfold helpword. repeat match goal with |- context [streq w ?x] => replace (streq w x) with false by (symmetry; apply streq_neq; intros ->; apply H; cbn [In]; tauto) end. reflexivity.
Qed.
Lemma signs_nokey c r : digit c \/ c = 42 \/ c = 63 -> keyfind args_crashlistout (c :: r) = None.
Proof.
  intros H. apply key_none. unfold args_crashlistout, digit in *.
  assert (T : tolower c = c) by (unfold tolower; destruct ((65 <=? c) && (c <=? 90)) eqn:E; [lia|reflexivity]).
  repeat (constructor; [cbn [a_name aauto abool]; cbn [map]; rewrite T; intros X; injection X as X _; unfold tolower in X; cbn in X; lia|]). constructor.
Qed.
Theorem C66_command : forall E d z pz pn pf pp, nokey d -> is_u16 z -> wfcomp pz -> wfcomp pn -> wfcomp pf -> wfcomp pp ->
  let pat := pz ++ lit ":" ++ pn ++ lit "/" ++ pf ++ lit "." ++ pp in
  crashlistout E [] = lo_list E (thedir E) (thezone E) star false /\
  crashlistout E [d] = lo_list E d (thezone E) star false /\
  crashlistout E [d; dec z] = lo_list E d z star false /\
  crashlistout E [d; dec z; pat] = lo_list E d z (NP PAT_PATTERN pz pn pf pp) false /\
  crashlistout E [d; dec z; pat; lit "verbose"] = lo_list E d z (NP PAT_PATTERN pz pn pf pp) true /\
  crashlistout E [d; dec z; pat; lit "x"] = Some LBadArgs /\
  crashlistout E [d; dec z; lit "x"] = Some LBadPattern.
Proof.
  intros E d z pz pn pf pp Hd Hz H1 H2 H3 H4 pat. pose proof (nokey_none d Hd) as Kd. pose proof (nokey_help d Hd) as Hh.
  assert (Kz : keyfind args_crashlistout (dec z) = None).
  { pose proof (dec_digits z ltac:(unfold is_u16 in Hz; lia)) as D. destruct (dec z) as [|c r] eqn:Ez; [reflexivity|]. inversion D; subst. apply signs_nokey. auto. }
  assert (Kp : keyfind args_crashlistout pat = None).
  { unfold pat. destruct H1 as [L1 F1]. destruct pz as [|c r]; [cbn in L1; lia|]. inversion F1; subst. cbn [app]. apply signs_nokey. auto. }
  assert (Kv : keyfind args_crashlistout (lit "verbose") = Some 3%nat) by reflexivity. assert (Kx : keyfind args_crashlistout (lit "x") = None) by reflexivity.
  assert (A : u32 (atoi (dec z)) = z) by (rewrite atoi_dec by (unfold is_u16 in Hz; lia); unfold u32; apply Z.mod_small; unfold is_u16 in Hz; lia).
  assert (P : lo_Parse4DPat pat = POk (NP PAT_PATTERN pz pn pf pp)) by (apply raw_full; auto).
  unfold crashlistout. rewrite Hh.
  repeat split; unfold parseargs; cbn [argloop length args_crashlistout repeat]; rewrite ?Kd, ?Kz; cbn [autofind args_crashlistout aauto abool a_name a_auto andb setd argloop option_map];
    rewrite ?Kz; cbn [autofind args_crashlistout aauto abool a_name a_auto andb setd argloop option_map]; rewrite ?Kp, ?Kx; cbn [autofind args_crashlistout aauto abool a_name a_auto andb setd argloop option_map];
    rewrite ?Kv, ?Kx; try reflexivity; cbn [typeof nth_error args_crashlistout abool a_type setd argloop autofind aauto a_name a_auto andb option_map mandatory a_mand negb given argd word LO_DIRECTORY LO_ZONE LO_PATTERN LO_VERBOSE];
    rewrite ?A, ?P; reflexivity.
Qed.
Print Assumptions C66_command.

(** The names of CrashMail: a flow file or packet for a node of the own zone and domain is
    listed for this node, under this priority. *)
Lemma hexnum_app a b v w : hexnum a v -> hexnum b w -> hexnum (a ++ b) (v * 16 ^ Z.of_nat (length b) + w).
Proof.
  intros Ha. induction 1 as [|l x c d H IH Hd]; [rewrite app_nil_r; change (16 ^ Z.of_nat (length (@nil Z))) with 1; replace (v * 1 + 0) with v by lia; auto|].
  rewrite app_assoc, app_length, Nat2Z.inj_add, Z.pow_add_r by lia. change (16 ^ Z.of_nat (length [c])) with 16.
  replace (v * (16 ^ Z.of_nat (length l) * 16) + (16 * x + d)) with (16 * (v * 16 ^ Z.of_nat (length l) + x) + d) by ring. constructor; auto.
Qed.
Lemma hexnum_hex n : forall z, 0 <= z < 16 ^ Z.of_nat n -> hexnum (hex n z) z.
Proof.
  induction n as [|n IH]; intros z Hz; [cbn in *; replace z with 0 by lia; constructor|].
  rewrite Nat2Z.inj_succ, Z.pow_succ_r in Hz by lia. cbn [hex]. pose proof (Z.div_mod z 16 ltac:(lia)) as D. pose proof (Z.mod_pos_bound z 16 ltac:(lia)) as B.
  rewrite D at 3. constructor; [apply IH; split; [apply Z.div_pos; lia|apply Z.div_lt_upper_bound; lia]|].
  unfold digit_value, hexdig. destruct (Z.ltb_spec (z mod 16) 10); lia.
Qed.
Lemma numbered_hex b v : hexnum b v -> numbered b v.
Proof. intros H. exists b, []. rewrite app_nil_r. split; auto. split; auto. intros; discriminate. Qed.
Lemma hexname_fine n b e : Forall (fun c => 48 <= c <= 102) b -> cstring e -> ~ In PATHCHAR e -> n = b ++ e -> name_fine n.
Proof.
  intros H He Hs ->. split.
  - apply Forall_app. split; auto. eapply Forall_impl; [|exact H]. cbn. intros; lia.
  - rewrite in_app_iff. intros [X|X]; auto. rewrite Forall_forall in H. apply H in X. unfold PATHCHAR in X. lia.
Qed.
Lemma star_matches n : matches star n.
Proof. unfold matches, star, zonematch, compmatch. cbn [pzone pnet pnode ppoint]. repeat split; right; try right; apply glob_star. Qed.
Lemma ending_fine k : cstring (ending k) /\ ~ In PATHCHAR (ending k) /\ map tolower (ending k) = ending k.
Proof.
  destruct k as [[]|[]|]; (split; [unfold cstring; cbn; repeat (apply Forall_cons; [lia|]); constructor|split; [cbn; unfold PATHCHAR; intros H; repeat destruct H as [H|H]; try discriminate H; auto|reflexivity]]).
Qed.
Lemma hexnil (b e : list Z) : length b = 8%nat -> b ++ e <> [].
Proof. destruct b; [discriminate|intros _; discriminate]. Qed.
Lemma cons_nil (a : list Z) c b : a ++ c :: b <> [].
Proof. destruct a; discriminate. Qed.
Theorem C66_own : forall env E first akas n pri k base file size date,
  oe_akas env = first :: akas -> zone n = zone (ak_node first) ->
  (forall r, findroute (oe_nl env) (oe_routes env) n = Some r ->
     ak_domain (rt_aka r) = [] \/ ak_domain first = [] \/ map tolower (ak_domain (rt_aka r)) = map tolower (ak_domain first)) ->
  valid4d n -> MakeBaseName env n = Some base -> consistent E ->
  (file = flowfile base pri /\ k = Flow (flav pri)) \/ (file = outfile base pri /\ k = Packet (flav pri)) ->
  lo_stat E file = Some (size, date) ->
  let out := stripslash (oe_outbound env) in
  (exists o c, out = o ++ [c] /\ c <> PATHCHAR) ->
  exists name dir, joinpath out name = file /\ waits (lo_dirs E) (lo_stat E) out (zone n) star (IT n k name dir size date).
Proof.
  intros env E first akas n pri k base file size date Ha Hz Hr (Vz & Vn & Vf & Vp) Hb HC Hfile Hs out (o & c & Ho & Hc).
  assert (J : forall x, joinpath out x = out ++ PATHCHAR :: x).
  { intros x. unfold joinpath. rewrite Ho, rev_app_distr. cbn [rev app]. destruct (Z.eqb_spec c PATHCHAR); [contradiction|reflexivity]. }
  assert (On : out <> []) by (rewrite Ho; destruct o; discriminate).
  assert (Od : otherdomain env first n = None).
  { unfold otherdomain. destruct (findroute _ _ n) as [r|] eqn:R; [|reflexivity]. destruct (Hr r eq_refl) as [X|[X|X]].
    - rewrite X. reflexivity.
    - rewrite X. destruct (ak_domain (rt_aka r)); reflexivity.
    - apply streqi_spec in X. destruct (ak_domain (rt_aka r)), (ak_domain first); try reflexivity. rewrite X. reflexivity. }
  unfold MakeBaseName in Hb. rewrite Ha, Od, Hz, Z.eqb_refl in Hb. fold out in Hb. injection Hb as Hb.
  assert (Ef : file = base ++ ending k).
  { destruct Hfile as [[-> ->]|[-> ->]]; [unfold flowfile, flowletter|unfold outfile, outletter]; unfold flav, PKTS_HOLD, PKTS_DIRECT, PKTS_CRASH; f_equal;
    destruct (pri =? 1); [reflexivity| |reflexivity|]; (destruct (pri =? 3); [reflexivity|]; destruct (pri =? 4); reflexivity). }
  destruct (ending_fine k) as (E1 & E2 & E3).
  set (b0 := hex 4 (net n) ++ hex 4 (node n)) in *.
  assert (Cb : Forall (fun c => 48 <= c <= 102) b0) by (apply Forall_app; split; apply hex_chars).
  assert (Lb : length b0 = 8%nat) by (unfold b0; rewrite app_length, !hex_length; reflexivity).
  assert (Nb : numbered b0 (net n * 65536 + node n)).
  { apply numbered_hex. unfold b0. pose proof (hexnum_app _ _ _ _ (hexnum_hex 4 (net n) ltac:(cbn; exact Vn)) (hexnum_hex 4 (node n) ltac:(cbn; exact Vf))) as X. rewrite hex_length in X. exact X. }
  assert (D1 : (net n * 65536 + node n) / 65536 = net n) by (rewrite Z.div_add_l by lia; rewrite Z.div_small by exact Vf; lia).
  assert (D2 : (net n * 65536 + node n) mod 65536 = node n) by (rewrite Z.add_comm, Z.mod_add by lia; apply Z.mod_small; exact Vf).
  destruct (Z.eqb_spec (point n) 0) as [P0|P0].
  - set (f := b0 ++ ending k).
    assert (Ff : name_fine f) by (eapply hexname_fine; eauto; reflexivity).
    assert (Efile : file = out ++ PATHCHAR :: f) by (rewrite Ef, <- Hb; unfold f, b0; cbn [app]; rewrite <- !app_assoc; reflexivity).
    rewrite Efile in Hs. destruct (HC out f On (hexnil _ _ Lb) Ff ltac:(congruence)) as (_ & names & Hn & Hin).
    exists f, out. split; [rewrite J; auto|]. replace n with (N4 (zone n) ((net n * 65536 + node n) / 65536) ((net n * 65536 + node n) mod 65536) 0) at 2 by (rewrite D1, D2; destruct n; cbn in *; congruence).
    eapply w_node; eauto; [exists (ending k); auto|apply star_matches|rewrite J; auto].
  - set (d := b0 ++ lit ".pnt"). set (b1 := hex 8 (point n)). set (f := b1 ++ ending k).
    assert (Cb1 : Forall (fun c => 48 <= c <= 102) b1) by apply hex_chars.
    assert (Ff : name_fine f) by (eapply hexname_fine; eauto; reflexivity).
    assert (Fd : name_fine d).
    { eapply (hexname_fine d b0 (lit ".pnt")); auto; [unfold cstring; cbn; repeat (apply Forall_cons; [lia|]); constructor|cbn; unfold PATHCHAR; intros H; repeat destruct H as [H|H]; try discriminate H; auto]. }
    assert (Efile : file = (out ++ PATHCHAR :: d) ++ PATHCHAR :: f).
    { rewrite Ef, <- Hb. unfold f, d, b1, b0. cbn [app]. repeat (rewrite <- !app_assoc; cbn [app]). reflexivity. }
    rewrite Efile in Hs. destruct (HC (out ++ PATHCHAR :: d) f (cons_nil _ _ _) (hexnil _ _ (hex_length 8 (point n))) Ff ltac:(congruence)) as (X & sub & Hsub & Hin). destruct (HC out d On (hexnil _ _ Lb) Fd X) as (_ & names & Hn & Hin').
    assert (Jd : joinpath d f = d ++ PATHCHAR :: f).
    { unfold joinpath, d. rewrite rev_app_distr. cbn. repeat (rewrite <- !app_assoc; cbn [app]). reflexivity. }
    exists (joinpath d f), (joinpath out d). split; [rewrite J, Jd, Efile, <- app_assoc; reflexivity|].
    assert (V : point n mod 65536 = point n) by (apply Z.mod_small; exact Vp).
    replace n with (N4 (zone n) ((net n * 65536 + node n) / 65536) ((net n * 65536 + node n) mod 65536) (point n mod 65536)) at 2 by (rewrite D1, D2, V; destruct n; reflexivity).
    eapply (w_point _ _ out (zone n) star names sub d b0 f b1 k); eauto.
    + exists (lit ".pnt"). auto.
    + rewrite J. exact Hsub.
    + exists (ending k). split; [reflexivity|]. split; [apply hex_length|exact E3].
    + apply numbered_hex, hexnum_hex. unfold is_u16 in Vp. change (16 ^ Z.of_nat 8) with 4294967296. lia.
    + apply star_matches.
    + rewrite J, Jd. rewrite <- app_assoc in Hs. exact Hs.
Qed.
Print Assumptions C66_own.

(** ** What the list does not tell *)
(** an outbound directory with a flow file, which lists one file to be deleted, and a packet *)
Definition demodirs (d : list Z) : option (list (list Z)) := if streq d (lit "o") then Some [lit "00010002.flo"; lit "00010002.hut"] else if streq d (lit "/t") then Some [lit "b"] else None.
Definition demostat (d : list Z) : option (Z * Z) :=
  if streq d (lit "o/00010002.flo") then Some (6, 0) else if streq d (lit "o/00010002.hut") then Some (3000000, 0)
  else if streq d (lit "/t/b") then Some (900000, 0) else if streq d (lit "o") then Some (0, 0) else if streq d (lit "/t") then Some (0, 0) else None.
Definition demoread (d : list Z) : option (list Z) := if streq d (lit "o/00010002.flo") then Some (lit "^/t/b" ++ [10]) else None.
Definition demolo : loenv := LO demodirs demostat demoread (fun _ => TM 0 0 0 1 0 126) None None (@isort fentry).
Definition demoline (t sz f : list Z) : list Z := line t (lit "2:1/2") (lit "01-Jan-26 00:00") sz f.
Lemma demo_text verbose : lo_list demolo (lit "o") 2 star verbose = Some (LList (heading ++
  demoline (lit "Normal") (lit "0M/1") (lit "00010002.flo") ++
  (if verbose then lit " " ++ column 39 (lit "/t/b") ++ lit " " ++ right10 (lit "0M") ++ lit "   " ++ lit "(To be truncated)" ++ [10; 10] else []) ++
  demoline (lit "Hold") (lit "2M/1") (lit "00010002.hut") ++ (if verbose then [10] else [10]) ++
  lit "Totally 0M bytes in 1 files to send, 0 requests." ++ [10])).
Proof. destruct verbose; vm_compute; reflexivity. Qed.
(** sizes below a megabyte are shown as 0M: 900000 bytes look like none at all *)
Theorem C66_unit_refuted : (forall i, 0 <= i < 1048576 -> lo_unit i = lit "0M") /\ lo_unit 900000 = lo_unit 0.
Proof.
  assert (H : forall i, 0 <= i < 1048576 -> lo_unit i = lit "0M").
  { intros i Hi. unfold lo_unit. replace (i <? u32 (-10000000)) with true by (symmetry; apply Z.ltb_lt; change (u32 (-10000000)) with 4284967296; lia).
    rewrite orb_true_r, Z.div_small by lia. reflexivity. }
  split; auto.
Qed.
(** the packets that wait are not part of the sums: 3000000 bytes in a packet, and nothing to
    send *)
Theorem C66_packets_refuted :
  exists it, waits demodirs demostat (lit "o") 2 star it /\ it_kind it = Packet Hold /\ it_size it = 3000000 /\
  exists t, lo_list demolo (lit "o") 2 star false = Some (LList (t ++ lit "Totally 0M bytes in 1 files to send, 0 requests." ++ [10])).
Proof.
  exists (IT (N4 2 1 2 0) (Packet Hold) (lit "00010002.hut") (lit "o") 3000000 0). split; [|split; [reflexivity|split; [reflexivity|]]].
  - apply (w_node demodirs demostat (lit "o") 2 star [lit "00010002.flo"; lit "00010002.hut"] (lit "00010002.hut") (lit "00010002") (Packet Hold) 65538).
    + reflexivity.
    + cbn [In]; auto.
    + exists (lit ".hut"). auto.
    + apply numbered_hex. exact (hexnum_hex 8 65538 ltac:(cbn; lia)).
    + apply star_matches.
    + reflexivity.
  - exists (heading ++ demoline (lit "Normal") (lit "0M/1") (lit "00010002.flo") ++ demoline (lit "Hold") (lit "2M/1") (lit "00010002.hut") ++ [10]).
    rewrite demo_text. generalize heading, (demoline (lit "Normal") (lit "0M/1") (lit "00010002.flo")), (demoline (lit "Hold") (lit "2M/1") (lit "00010002.hut")).
    intros a b c. rewrite <- !app_assoc. reflexivity.
Qed.
(** a file that CrashMail wants deleted is said to be truncated *)
Theorem C66_remark_refuted : flowprefix FLOW_DELETE = lit "^" /\ remark (lit "^/t/b") = lit "(To be truncated)" /\
  exists a b, lo_list demolo (lit "o") 2 star true = Some (LList (a ++ lit "   (To be truncated)" ++ b)).
Proof.
  split; [reflexivity|split; [reflexivity|]]. rewrite demo_text.
  exists (heading ++ demoline (lit "Normal") (lit "0M/1") (lit "00010002.flo") ++ lit " " ++ column 39 (lit "/t/b") ++ lit " " ++ right10 (lit "0M")),
    ([10; 10] ++ demoline (lit "Hold") (lit "2M/1") (lit "00010002.hut") ++ [10] ++ lit "Totally 0M bytes in 1 files to send, 0 requests." ++ [10]).
  generalize heading, (demoline (lit "Normal") (lit "0M/1") (lit "00010002.flo")), (demoline (lit "Hold") (lit "2M/1") (lit "00010002.hut")), (column 39 (lit "/t/b")), (right10 (lit "0M")), (lit "Totally 0M bytes in 1 files to send, 0 requests.").
  intros a b c d e g. change (lit "   (To be truncated)") with (lit "   " ++ lit "(To be truncated)"). generalize (lit "   "), (lit "(To be truncated)"), (lit " "). intros x y w. repeat (rewrite <- !app_assoc; cbn [app]). reflexivity.
Qed.
(** a directory that cannot be read is no reason for an exit status other than that of
    success *)
Theorem C66_status_refuted : forall E out cz pat verbose, lo_dirs E out = None -> exists o, lo_list E out cz pat verbose = Some o /\ o = LNoDir /\ lo_exit o = EXIT_OK.
Proof. intros E out cz pat verbose H. exists LNoDir. unfold lo_list. rewrite H. auto. Qed.
(** two points of the same node can look the same *)
Theorem C66_address_refuted : exists a b lt k f d s t bf, valid4d a /\ valid4d b /\ a <> b /\ itemline lt (IT a k f d s t) bf = itemline lt (IT b k f d s t) bf.
Proof.
  exists (N4 12345 12345 12345 10), (N4 12345 12345 12345 11), (fun _ => TM 0 0 0 1 0 126), Requests, [], [], 0, 0, [].
  unfold valid4d, is_u16. cbn. repeat (split; [lia || discriminate|]). reflexivity.
Qed.

Example C66_nonvacuous :
  sorts (lo_qsort demolo) /\ fine demolo (lit "o") /\ lo_dirs demolo (lit "o") = Some [lit "00010002.flo"; lit "00010002.hut"] /\
  consistent demolo /\ nokey (lit "/var/spool/out") /\
  crashlistout demolo [lit "o"; lit "2"; lit "2:*/*.*"] = lo_list demolo (lit "o") 2 (NP PAT_PATTERN (lit "2") (lit "*") (lit "*") (lit "*")) false.
Proof.
  split; [apply isort_sorts|]. split.
  { split; [unfold cstring; repeat constructor; cbn; lia|]. split; [cbn; lia|]. split; [|split].
    - intros d names. cbn [lo_dirs demolo]. unfold demodirs. destruct (streq d _); [|destruct (streq d _); [|discriminate]]; intros X; injection X as <-;
      repeat (apply Forall_cons; [split; [unfold cstring; cbn; repeat (apply Forall_cons; [lia|]); constructor|cbn; unfold PATHCHAR; intros H; repeat destruct H as [H|H]; try discriminate H; auto]|]); constructor.
    - intros p size date. cbn [lo_stat demolo]. unfold demostat, is_u32. destruct (streq p _); [intros X; injection X as <- <-; lia|]. destruct (streq p _); [intros X; injection X as <- <-; lia|].
      destruct (streq p _); [intros X; injection X as <- <-; lia|]. destruct (streq p _); [intros X; injection X as <- <-; lia|]. destruct (streq p _); [intros X; injection X as <- <-; lia|discriminate].
    - intros p s. cbn [lo_read demolo]. unfold demoread. destruct (streq p _); [|discriminate]. intros X; injection X as <-. exists [lit "^/t/b"]. split; [reflexivity|].
      constructor; [|constructor]. split; [cbn; repeat (apply Forall_cons; [lia|]); constructor|cbn; lia]. }
  split; [reflexivity|]. split.
  { intros d f Hd Hf (_ & Hs). cbn [lo_stat lo_dirs demolo]. unfold demostat at 1.
    assert (L : forall a b (d f : list Z), ~ In 47 f -> d ++ 47 :: f = a ++ 47 :: b -> ~ In 47 b -> d = a /\ f = b).
    { clear. intros a b d f Hf E Hb. revert a E. induction d as [|x d IH]; intros a E.
      - destruct a as [|y a]; [injection E as ->; auto|]. injection E as <- E. exfalso. apply Hf. rewrite E. apply in_app_iff. right. left. reflexivity.
      - destruct a as [|y a]; cbn in E; injection E as -> E; [exfalso; apply Hb; rewrite <- E; apply in_app_iff; right; left; reflexivity|]. destruct (IH a E) as [-> ->]. auto. }
    unfold PATHCHAR in *.
    destruct (streq _ (lit "o/00010002.flo")) eqn:E1; [|destruct (streq _ (lit "o/00010002.hut")) eqn:E2; [|destruct (streq _ (lit "/t/b")) eqn:E3; [|destruct (streq _ (lit "o")) eqn:E4; [|destruct (streq _ (lit "/t")) eqn:E5; [|congruence]]]]]; intros _.
    - apply streq_eq in E1. destruct (L (lit "o") (lit "00010002.flo") d f Hs E1) as [-> ->]; [cbn; intros H; repeat destruct H as [H|H]; try discriminate H; auto|]. split; [discriminate|]. eexists. split; [reflexivity|]. left; auto.
    - apply streq_eq in E2. destruct (L (lit "o") (lit "00010002.hut") d f Hs E2) as [-> ->]; [cbn; intros H; repeat destruct H as [H|H]; try discriminate H; auto|]. split; [discriminate|]. eexists. split; [reflexivity|]. right; left; auto.
    - apply streq_eq in E3. destruct (L (lit "/t") (lit "b") d f Hs E3) as [-> ->]; [cbn; intros H; repeat destruct H as [H|H]; try discriminate H; auto|]. split; [discriminate|]. eexists. split; [reflexivity|]. left; auto.
    - apply streq_eq in E4. destruct d as [|x [|y d]]; [contradiction| |]; discriminate E4.
    - apply streq_eq in E5. destruct d as [|x [|y [|x' d]]]; [contradiction| | |]; try discriminate E5. }
  split; [split; [intros k Hk; repeat (destruct Hk as [<-|Hk]; [discriminate|]); destruct Hk|cbn; intros H; repeat destruct H as [H|H]; try discriminate H; auto]|].
  reflexivity.
Qed.
