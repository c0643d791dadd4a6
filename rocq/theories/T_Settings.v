(** C72: the settings of the configuration file. *)
From Verif Require Import Base M_Node4D M_Pat M_Str S_Str P_Str M_Mem M_Cfg M_Upd S_Upd T_Upd P_UpdTok P_UpdCls P_UpdSim P_Export M_Filter M_Net M_Settings S_Settings P_Settings P_Settings2 P_Settings3.

(** A text is the first word of the last line with its keyword, cut to the size of the setting. *)
Theorem C72_texts : forall s c k key f n, Forall byte s -> ReadAll s = POk (c, k) -> In (key, f, n) texts ->
  match lastof (says key) (flines s) with
  | None => sc_str k f = textdefault f
  | Some l => exists w r, args l = w :: r /\ sc_str k f = firstn n w
  end.
Proof.
  intros s c k key f n Hs H Hi. pose proof (last_gen (says key) (fun l v => exists w r, args l = w :: r /\ v = firstn n w) (fun s => sc_str s f) _ (texts_step key f n Hi) _ _ (flines_cstring _ Hs) H) as G. cbn [snd] in G. destruct (lastof (says key) (flines s)); [exact G|]. rewrite G. destruct f; reflexivity.
Qed.
Print Assumptions C72_texts.
(** A number comes from the last line with its keyword. *)
Theorem C72_numbers : forall s c k key f i n mean, Forall byte s -> ReadAll s = POk (c, k) -> In (key, f, i, n, mean) numbers ->
  match lastof (says key) (flines s) with
  | None => sc_num k f = numdefault f
  | Some l => exists w, nth_error (args l) i = Some w /\ mean (firstn n w) (sc_num k f)
  end.
Proof.
  intros s c k key f i n mean Hs H Hi. pose proof (last_gen (says key) (fun l v => exists w, nth_error (args l) i = Some w /\ mean (firstn n w) v) (fun s => sc_num s f) _ (numbers_step key f i n mean Hi) _ _ (flines_cstring _ Hs) H) as G. cbn [snd] in G. destruct (lastof (says key) (flines s)); [exact G|]. rewrite G. destruct f; reflexivity.
Qed.
Print Assumptions C72_numbers.
(** A switch is on exactly if a line has its keyword. *)
Theorem C72_switches : forall s c k key f b, Forall byte s -> ReadAll s = POk (c, k) -> In (key, f, b) switches ->
  Z.testbit (sc_num k f) b = existsb (says key) (flines s).
Proof.
  intros s c k key f b Hs H Hi. apply (exists_gen (says key) (fun s => Z.testbit (sc_num s f) b) (FC [] [] [] [] [], InitConfig)) with (z := (c, k)); auto.
  - unfold switches in Hi. cbn [In] in Hi. repeat (destruct Hi as [E|Hi]; [injection E as <- <- <-; reflexivity|]). destruct Hi.
  - exact (switches_step key f b Hi).
  - apply flines_cstring; auto.
Qed.
Print Assumptions C72_switches.
(** The format of the nodelist and the names of the groups. *)
Theorem C72_names : forall s c k, Forall byte s -> ReadAll s = POk (c, k) ->
  match lastof (says "NODELIST") (flines s) with
  | None => sc_nl k = None
  | Some l => exists w f r, args l = w :: f :: r /\
      (sc_nl k = Some 0%nat /\ streqi (firstn 39 f) (lit "CMNL") = true \/ sc_nl k = Some 1%nat /\ streqi (firstn 39 f) (lit "V7+") = true)
  end /\
  forall i, match lastof (namesgroup i) (flines s) with
            | None => sc_group k i = []
            | Some l => exists w n r, args l = w :: n :: r /\ sc_group k i = firstn 79 n
            end.
Proof.
  intros s c k Hs H. split.
  - pose proof (last_gen (says "NODELIST") (fun l v => exists w f r i, args l = w :: f :: r /\ v = Some i /\ nth_error [lit "CMNL"; lit "V7+"] i <> None /\ forall n, nth_error [lit "CMNL"; lit "V7+"] i = Some n -> streqi (firstn 39 f) n = true) sc_nl _ nl_step _ _ (flines_cstring _ Hs) H) as G. cbn [snd] in G.
    destruct (lastof (says "NODELIST") (flines s)); [|exact G]. destruct G as (w & f & r & i & Ea & Ei & Hn & Hm). exists w, f, r. split; [exact Ea|]. destruct i as [|[|i]]; [left|right|destruct i; cbn in Hn; congruence]; (split; [exact Ei|apply Hm; reflexivity]).
  - intros i. pose proof (last_gen (namesgroup i) (fun l v => exists w n r, args l = w :: n :: r /\ v = firstn 79 n) (fun s => sc_group s i) _ (groups_step i) _ _ (flines_cstring _ Hs) H) as G. cbn [snd] in G. destruct (lastof (namesgroup i) (flines s)); exact G.
Qed.
Print Assumptions C72_names.
(** Lists have what the lines give, in the order of the lines. A route uses the first AKA with its
    address and an area list belongs to the first node with its address. *)
Theorem C72_lists : forall s c k, Forall byte s -> ReadAll s = POk (c, k) ->
  Forall2 patword (sc_attach k) (wordsof "FILEATTACH" (flines s)) /\ Forall2 patword (sc_bounce k) (wordsof "BOUNCE" (flines s)) /\
  Forall2 nameline (sc_afnames k) (filter (says "AREAFIXNAME") (flines s)) /\
  Forall2 (routeline (map ak_node (sc_akas k))) (sc_routes k) (filter (says "ROUTE") (flines s)) /\
  Forall2 changeline (sc_changes k) (filter (says "CHANGE") (flines s)) /\
  Forall2 (arealistline (map fn_node (cf_nodes c))) (sc_arealists k) (filter (says "AREALIST") (flines s)).
Proof.
  intros s c k Hs H. pose proof (flines_cstring _ Hs) as Hc. unfold ReadAll in H.
  split; [|split; [|split; [|split; [|split]]]].
  - destruct (list_gen (says "FILEATTACH") (fun _ l it => Forall2 patword it (args l)) sc_attach (FC [] [] [] [] [], InitConfig) eq_refl attach_step ltac:(auto) _ _ Hc H) as (its & E & F). cbn [snd] in E. rewrite E. apply words_gen. exact F.
  - destruct (list_gen (says "BOUNCE") (fun _ l it => Forall2 patword it (args l)) sc_bounce (FC [] [] [] [] [], InitConfig) eq_refl bounce_step ltac:(auto) _ _ Hc H) as (its & E & F). cbn [snd] in E. rewrite E. apply words_gen. exact F.
  - destruct (list_gen (says "AREAFIXNAME") (fun _ l it => exists n, it = [n] /\ nameline n l) sc_afnames (FC [] [] [] [] [], InitConfig) eq_refl afnames_step ltac:(auto) _ _ Hc H) as (its & E & F). cbn [snd] in E. rewrite E. apply single_gen. exact F.
  - assert (M : forall akas m t l, routeline akas t l -> routeline (akas ++ m) t l).
    { intros akas m t l (p & d & a & r & n & A & B & C & D & F). exists p, d, a, r, n. split; [exact A|]. split; [exact B|]. split; [exact C|]. split; [exact D|]. apply firstat_app. exact F. }
    destruct (list_gen (says "ROUTE") (fun z l it => exists t, it = [t] /\ routeline (map ak_node (sc_akas (snd z))) t l) sc_routes (FC [] [] [] [] [], InitConfig) eq_refl) with (ls := flines s) (z := (c, k)) as (its & E & F); auto.
    + intros x l y Hl Hf. pose proof (routes_step x l y Hl Hf) as G. destruct (says "ROUTE" l); [|exact G]. destruct G as (it & G1 & t & G2 & G3). exists it. split; [exact G1|]. exists t. split; [exact G2|]. destruct (akas_grow x l y Hl Hf) as [m ->]. apply M. exact G3.
    + intros x l y l0 it Hl Hf (t & Ht & Hr). exists t. split; [exact Ht|]. destruct (akas_grow x l y Hl Hf) as [m ->]. apply M. exact Hr.
    + cbn [snd] in E, F. rewrite E. apply single_gen. exact F.
  - destruct (list_gen (says "CHANGE") (fun _ l it => exists n, it = [n] /\ changeline n l) sc_changes (FC [] [] [] [] [], InitConfig) eq_refl changes_step ltac:(auto) _ _ Hc H) as (its & E & F). cbn [snd] in E. rewrite E. apply single_gen. exact F.
  - destruct (list_gen (says "AREALIST") (fun z l it => exists t, it = [t] /\ arealistline (map fn_node (cf_nodes (fst z))) t l) sc_arealists (FC [] [] [] [] [], InitConfig) eq_refl arealists_step) with (ls := flines s) (z := (c, k)) as (its & E & F); auto.
    + intros x l y l0 it Hl Hf (t & Ht & n & f & r & q & A & B & C & D). exists t. split; [exact Ht|]. destruct (nodes_grow x l y Hl Hf) as [m ->]. exists n, f, r, q. split; [exact A|]. split; [exact B|]. split; [apply firstat_app; exact C|exact D].
    + cbn [fst snd] in E, F. rewrite E. apply single_gen. exact F.
Qed.
Print Assumptions C72_lists.
(** A command belongs to the last FILTER line above it; the filters and the commands are in the
    order of the lines. *)
Theorem C72_filters : forall s c k, Forall byte s -> ReadAll s = POk (c, k) ->
  exists bs, blocks (says "FILTER") (filter aboutfilter (flines s)) bs /\ Forall2 filterblock (sc_filters k) bs.
Proof.
  intros s c k Hs H. apply (blocks_gen sc_filters (says "FILTER") aboutfilter _ _ filterblock (FC [] [] [] [] [], InitConfig) eq_refl filters_step) with (z := (c, k)); auto.
  - intros f l [Hr ->]. split; [exact Hr|]. split; [reflexivity|constructor].
  - intros l f f' h t (cm & -> & Hcm) (B1 & B2 & B3). split; [exact B1|]. split; [exact B2|]. cbn [fst snd] in *. apply Forall2_app; auto.
  - apply flines_cstring; auto.
Qed.
Print Assumptions C72_filters.
(** ADDNODE, REMNODE and DOMAIN belong to the last AKA line above them. *)
Theorem C72_akas : forall s c k, Forall byte s -> ReadAll s = POk (c, k) ->
  (exists bs, blocks (says "AKA") (filter aboutaka (flines s)) bs /\ Forall2 akablock (sc_akas k) bs) /\
  map ak_node (sc_akas k) = cf_akas c.
Proof.
  intros s c k Hs H. pose proof (flines_cstring _ Hs) as Hc. unfold ReadAll in H. split.
  - apply (blocks_gen sc_akas (says "AKA") aboutaka _ _ akablock (FC [] [] [] [] [], InitConfig) eq_refl akas_step) with (z := (c, k)); auto.
    + intros a l (n & w & r & -> & Ha & Hn). split; [exists w, r; auto|]. cbn. split; [constructor|]. split; [constructor|reflexivity].
    + intros l a a' h t. apply akablock_chg.
  - revert Hc H. generalize (flines s) as ls. intros ls. revert c k. induction ls as [|l ls IH] using rev_ind; intros c k Hc H; [injection H as <- <-; reflexivity|].
    apply Forall_app in Hc as [Hc Hl]. apply fulllines_snoc in H as ([c0 k0] & H1 & H2). apply (akas_same (c0, k0) l (c, k) (Forall_inv Hl) H2). exact (IH _ _ Hc H1).
Qed.
Print Assumptions C72_akas.
(** Nodes, areas and packers are what C45 and C64 say about the same file. *)
Theorem C72_base : forall s c k, Forall byte s -> ReadAll s = POk (c, k) -> ReadConfig (fun _ _ _ _ _ => true) s = ROk c.
Proof. intros s c k Hs H. exact (fulllines_base _ _ _ (flines_cstring _ Hs) H). Qed.
Print Assumptions C72_base.
(** Every line of a file that is accepted is empty, a comment or has one of the keywords. *)
Theorem C72_keywords : forall s c k l, Forall byte s -> ReadAll s = POk (c, k) -> In l (flines s) ->
  keyword l = [] \/ hd 0 (keyword l) = 59 \/ existsb (fun w => says w l) keywords = true.
Proof.
  intros s c k l Hs H Hi. pose proof (flines_cstring _ Hs) as Hc. rewrite Forall_forall in Hc. specialize (Hc l Hi). destruct (fulllines_each _ _ _ _ H Hi) as (x & y & Hf).
  assert (S : forall w, In w allkeys -> kw (keyword l) w = true -> existsb (fun w => says w l) keywords = true).
  { intros w Hw Hk. assert (B : forallb (fun w => existsb (String.eqb w) keywords) allkeys = true) by (vm_compute; reflexivity). rewrite forallb_forall in B. specialize (B _ Hw). apply existsb_exists in B as (w' & Hw' & B). apply String.eqb_eq in B. subst w'. apply existsb_exists. exists w. auto. }
  destruct (line_cases x l y Hc Hf) as [w Hw Hk _ _ _|n w r Hk _ _ _ _|w kd Hw Hk _ _ _|_ Hz _].
  - right. right. apply (S w); auto. apply in_or_app. auto.
  - right. right. apply (S "AKA"%string); auto. apply in_or_app. left. left. reflexivity.
  - right. right. apply (S w); auto. apply in_or_app. right. apply in_map_iff. exists (w, kd). auto.
  - destruct Hz as [Hz|Hz]; auto. left. unfold keyword in *. destruct (tok 30 l) as [[b ok] r] eqn:Et. cbn [fst] in *.
    destruct (first_word_ex l Hc) as (q & t & rest & Hw). destruct (jb_gen l q t rest (repeat 0 30) 30 Hc Hw) as [_ Ht]. rewrite (tok_gen _ _ _ _ 30 Hc Hw (two_le _)) in Et. injection Et as <- _ _.
    destruct t as [|d t]; [reflexivity|exfalso]. cbn in Hz. subst d. apply Forall_inv in Ht. lia.
Qed.
Print Assumptions C72_keywords.
(** A file that is accepted is still accepted with one more line that is right. *)
Theorem C72_accepted : forall ls l x, Forall goodline (ls ++ [l]) -> ReadAll (filetext ls) = POk x -> wellformed (fst l ++ [10]) ->
  exists y, ReadAll (filetext (ls ++ [l])) = POk y.
Proof.
  intros ls l x Hg H Hw. unfold ReadAll, flines in *. rewrite (flines_filetext _ Hg) by auto. apply Forall_app in Hg as [Hg Hl]. rewrite (flines_filetext _ Hg) in H by auto.
  unfold seen in *. rewrite map_app, fulllines_app, H. cbn [pbind map fulllines]. destruct (wellformed_ok x (fst l ++ [10])) as (y & E); [|exact Hw|].
  - destruct (Forall_inv Hl) as (Hc & _). apply Forall_app. split; [exact Hc|]. constructor; [lia|constructor].
  - rewrite E. cbn [pbind]. exists y. reflexivity.
Qed.
Print Assumptions C72_accepted.

(** ** An example *)
Definition nl := [10].
Definition q (s : String.string) : list Z := 34 :: lit s ++ [34].
Definition sample : list Z :=
  lit "; a comment" ++ nl ++ nl ++ lit "AKA 2:5/6" ++ nl ++ lit "DOMAIN FidoNet" ++ nl ++ lit "ADDNODE 2:5/7 2:5/8" ++ nl ++ lit "AKA 2:5/9" ++ nl ++ lit "REMNODE 5/*" ++ nl ++
  lit "sysop " ++ q "Jo" ++ nl ++ lit "SYSOP " ++ q "A B" ++ nl ++ lit "LOGLEVEL 5" ++ nl ++ lit "DUPEFILE /d 20" ++ nl ++ lit "DUPEMODE bad" ++ nl ++ lit "MAXPKTSIZE 3" ++ nl ++
  lit "NODE 2:5/7 " ++ q "" ++ lit " " ++ q "" ++ nl ++ lit "PATH3D" ++ nl ++ lit "NODELIST /n V7+" ++ nl ++ lit "GROUPNAME B Local" ++ nl ++
  lit "ROUTE 2:5/* 2:5/7.0 2:5/9" ++ nl ++ lit "CHANGE NORMAL,CRASH 2:* HOLD" ++ nl ++ lit "AREALIST 2:5/7 /l DESC GROUP b" ++ nl ++
  lit "FILTER TYPE=" ++ q "ECHO" ++ nl ++ lit "COPY BAD" ++ nl ++ lit "KILL" ++ nl ++ lit "BOUNCE 3:*" ++ nl.
Definition facts (c : fconf) (k : sconf) : list Z * list Z * option nat * list Z * list node4d * list (list Z * nat * nat) * list nat * list (bool * bool * bool * bool * Z) * list sarealist * list (list Z * list command) * nat :=
  (sc_str k FSysop, [sc_num k NLogLevel; sc_num k NDupeSize; sc_num k NDupeMode; sc_num k NMaxPktSize; sc_num k NFlags], sc_nl k, sc_group k 1, cf_akas c,
   map (fun a => (ak_domain a, length (ak_add a), length (ak_rem a))) (sc_akas k), map srt_aka (sc_routes k),
   map (fun h => (ch_normal h, ch_crash h, ch_direct h, ch_hold h, ch_pri h)) (sc_changes k), sc_arealists k, sc_filters k, length (sc_bounce k)).
Definition factsof (r : pres (fconf * sconf)) := match r with POk (c, k) => Some (facts c k) | _ => None end.
Lemma factsof_ok r v : factsof r = Some v -> exists c k, r = POk (c, k) /\ facts c k = v.
Proof. destruct r as [[c k]| |]; cbn [factsof]; try discriminate. intros H. exists c, k. split; [reflexivity|]. congruence. Qed.
Definition told := (lit "A B", [5; 20; 1; 3072; 32], Some 1%nat, lit "Local", [N4 2 5 6 0; N4 2 5 9 0], [(lit "FidoNet", 2%nat, O); ([], O, 1%nat)], [1%nat],
     [(true, true, false, false, 1)], [SAL 0 (lit "/l") 1 66], [(lit "TYPE=" ++ q "ECHO", [CCopy (lit "BAD"); CKill])], 1%nat).
Lemma sample_told : factsof (ReadAll sample) = Some told.
Proof. vm_compute. reflexivity. Qed.
Lemma sample_bytes : Forall byte sample.
Proof. apply Forall_forall. intros x Hx. assert (forallb (fun c => (0 <=? c) && (c <? 256)) sample = true) as F by (vm_compute; reflexivity). rewrite forallb_forall in F. apply F in Hx. unfold byte. lia. Qed.
Example C72_nonvacuous : (exists c k, Forall byte sample /\ ReadAll sample = POk (c, k) /\ facts c k = told) /\
  ReadAll (lit "LOGLEVEL 9" ++ nl) = PFail /\ ReadAll (lit "COPY BAD" ++ nl) = PFail /\ ReadAll (lit "NOSUCH" ++ nl) = PFail /\
  wellformed (lit "MAXBUNDLESIZE 100" ++ nl).
Proof.
  split; [destruct (factsof_ok _ _ sample_told) as (c & k & H); exists c, k; split; [exact sample_bytes|exact H]|].
  split; [vm_compute; reflexivity|]. split; [vm_compute; reflexivity|]. split; [vm_compute; reflexivity|].
  right. right. right. right. left. exists "MAXBUNDLESIZE"%string, NMaxBundleSize, 199%nat, kilobytes, (lit "100"), [], 102400. split; [unfold numbers; do 5 right; left; reflexivity|].
  split; [vm_compute; reflexivity|]. split; [vm_compute; reflexivity|]. split; [|lia]. unfold kilobytes. change (atoi (firstn 199 (lit "100"))) with 100. lia.
Qed.

(** ** What goes wrong *)
(** a domain of 20 characters is written past the end of its array *)
Theorem C72_domain_refuted : exists l, Forall byte l /\ ReadAll l = PUB.
Proof. exists (lit "AKA 2:5/6" ++ nl ++ lit "DOMAIN abcdefghijklmnopqrst" ++ nl). split; [repeat constructor; discriminate|vm_compute; reflexivity]. Qed.
Print Assumptions C72_domain_refuted.
(** an empty group is an index before the array of names *)
Theorem C72_group_refuted : exists l, ReadAll l = PUB /\ Forall (fun x => says "GROUPNAME" x = true) (flines l).
Proof. exists (lit "GROUPNAME " ++ q "" ++ lit " Local" ++ nl). split; [vm_compute; reflexivity|]. vm_compute. repeat constructor. Qed.
Print Assumptions C72_group_refuted.
(** a size of 2 gigabytes overflows the int it is computed in *)
Theorem C72_size_refuted : exists l, ReadAll l = PUB /\ Forall (fun x => says "MAXPKTSIZE" x = true /\ args x = [lit "2097152"]) (flines l).
Proof. exists (lit "MAXPKTSIZE 2097152" ++ nl). split; [vm_compute; reflexivity|]. vm_compute. repeat constructor. Qed.
Print Assumptions C72_size_refuted.
