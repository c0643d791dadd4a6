(** C73: areas that are added automatically. *)
From Verif Require Import Base M_Node4D M_Str S_Str M_Mem M_Cfg M_Out M_Upd M_Filter M_Net M_Settings S_Echo M_AddArea S_AddArea P_AddArea.
From Verif Require P_Out.

(** The area can be added exactly if its name is shorter than 80 characters and there is an
    address to use. *)
Theorem C73_total : forall c als files now lastt name addr mynode active pass,
  (exists a t, AddArea c als files now lastt name addr mynode active pass = Some (a, t)) <-> (length name < 80)%nat /\ cf_akas c <> [].
Proof.
  intros c als files now lastt name addr mynode active pass. unfold AddArea. destruct (80 <=? length name)%nat eqn:E.
  - apply Nat.leb_le in E. split; [intros (a & t & H); discriminate|lia].
  - apply Nat.leb_gt in E. pose proof (findpos_ok (fun k => Compare4D k mynode =? 0) (fun k => sameaddr k mynode) (cf_akas c) (fun k => same_iff k mynode)) as Ha.
    destruct (findpos (fun k => Compare4D k mynode =? 0) (cf_akas c)) as [i|].
    + split; [intros _; split; [exact E|]|intros _; eexists; eexists; reflexivity]. intros N. rewrite N in Ha. destruct Ha as [(x & Hx & _) _]. destruct i; discriminate.
    + destruct (cf_akas c) as [|k l]; [split; [intros (a & t & H); discriminate|intros [_ N]; congruence]|]. split; [intros _; split; [exact E|discriminate]|intros _; eexists; eexists; reflexivity].
Qed.
Print Assumptions C73_total.

(** The area has the name that was asked for and our address, it belongs to the default group of
    the sender, it takes its settings and links from the template, is not read by anybody who is
    not linked, and is unconfirmed unless areas are to be active at once. *)
Theorem C73_area : forall c als files now lastt name addr mynode active pass a t,
  AddArea c als files now lastt name addr mynode active pass = Some (a, t) ->
  fa_tag a = name /\ fa_type a = AREATYPE_ECHOMAIL /\ fa_changed a = true /\ fa_import a = [] /\ fa_banned a = [] /\
  (firstpos (fun k => sameaddr k mynode) (cf_akas c) (fa_aka a) \/ (Forall (fun k => ~ sameaddr k mynode) (cf_akas c) /\ fa_aka a = O)) /\
  exists sender tmpl, issender (cf_nodes c) addr sender /\ groupof (cf_nodes c) sender (fa_group a) /\ istemplate (cf_areas c) (fa_group a) tmpl /\
    (forall i, 0 <= i -> Z.testbit (fa_flags a) i =
       if active then match tmpl with Some d => (1 <=? i) && (i <=? 4) && Z.testbit (fa_flags d) i | None => false end else i =? 0) /\
    fa_mb a = (if pass then None else match tmpl with Some d => fa_mb d | None => None end) /\
    fa_keepnum a = match tmpl with Some d => fa_keepnum d | None => 0 end /\
    fa_keepdays a = match tmpl with Some d => fa_keepdays d | None => 0 end /\
    rightlinks (match tmpl with Some d => fa_toss d | None => [] end) sender (cf_nodes c) (fa_group a) (Z.testbit (fa_flags a) 2) (fa_toss a).
Proof.
  intros c als files now lastt name addr mynode active pass a t H. destruct (area_all _ _ _ _ _ _ _ _ _ _ _ _ H) as (H1 & H2 & H3 & H4 & H5 & H6 & sd & tmpl & H7 & H8 & H9 & H10 & H11 & H12 & H13 & H14 & _).
  do 6 (split; [assumption|]). exists sd, tmpl. do 3 (split; [assumption|]). split; [|auto]. intros i Hi. rewrite H10. destruct active.
  - destruct tmpl as [d|]; [|apply Z.bits_0]. rewrite Z.land_spec. replace (Z.testbit 30 i) with ((1 <=? i) && (i <=? 4)); [apply andb_comm|].
    destruct (Z.le_gt_cases i 4) as [L|L]; [assert (C : i = 0 \/ i = 1 \/ i = 2 \/ i = 3 \/ i = 4) by lia; destruct C as [->|[->|[->|[->| ->]]]]; reflexivity|].
    rewrite Z.bits_above_log2; [lia|lia|]. change (Z.log2 30) with 4. lia.
  - destruct (Z.eqb_spec i 0) as [->|N]; [reflexivity|]. apply Z.bits_above_log2; [lia|]. change (Z.log2 1) with 0. lia.
Qed.
Print Assumptions C73_area.

(** There is only one template for a group. *)
Theorem C73_template : forall areas g o o', istemplate areas g o -> istemplate areas g o' -> o = o'.
Proof. exact istemplate_fun. Qed.
Print Assumptions C73_template.

(** The path of the area is that of the template with the name and the number filled in, cut to 79
    characters. *)
Theorem C73_path : forall c als files now lastt name addr mynode active pass a t tmpl,
  AddArea c als files now lastt name addr mynode active pass = Some (a, t) -> istemplate (cf_areas c) (fa_group a) tmpl ->
  match tmpl with
  | None => fa_path a = [] /\ t = lastt
  | Some d => t = (if lastt =? 0 then now else lastt + 1) /\
      (Forall (fun c => 0 <= c < 256) (fa_path d) ->
       exists f x, filename name f /\ expands f (hex 8 t) (fa_path d) x /\ fa_path a = firstn 79 x /\
         forall f' x', filename name f' -> expands f' (hex 8 t) (fa_path d) x' -> x' = x)
  end.
Proof.
  intros c als files now lastt name addr mynode active pass a t tmpl H Ht. destruct (area_all _ _ _ _ _ _ _ _ _ _ _ _ H) as (_ & _ & _ & _ & _ & _ & sd & tmpl' & _ & _ & H9 & _ & _ & _ & _ & _ & _ & Et & Ep).
  rewrite (istemplate_fun _ _ _ _ Ht H9) in *. destruct tmpl' as [d|]; [|auto]. split; [exact Et|]. intros Hb. destruct (expand_full 80 (cleanname name) (hex 8 t) (fa_path d) Hb [] ltac:(cbn; lia)) as (x & Hx & E).
  exists (cleanname name), x. split; [apply cleanname_ok|]. split; [exact Hx|]. split; [rewrite Ep; exact E|]. intros f' x' Hf Hx'. rewrite (filename_fun _ _ Hf) in Hx'. exact (expands_fun _ _ _ _ Hx _ Hx').
Qed.
Print Assumptions C73_path.

(** Whatever the name is, the messages are stored in the directory of the template. *)
Theorem C73_inside : forall c als files now lastt name addr mynode active pass a t d dir rest,
  AddArea c als files now lastt name addr mynode active pass = Some (a, t) -> istemplate (cf_areas c) (fa_group a) (Some d) ->
  Forall (fun c => 0 <= c < 256) (fa_path d) -> fa_path d = dir ++ 47 :: rest -> ~ In 37 dir -> ~ In 47 rest -> (length dir < 79)%nat ->
  exists b, fa_path a = dir ++ 47 :: b /\ ~ In 47 b.
Proof.
  intros c als files now lastt name addr mynode active pass a t d dir rest H Ht Hb Ed Hd Hr Hl. destruct (C73_path _ _ _ _ _ _ _ _ _ _ _ _ _ H Ht) as [_ G]. destruct (G Hb) as (f & x & Hf & Hx & -> & _). rewrite Ed in Hx.
  destruct (expands_dir _ _ _ _ _ Hd Hx) as (u & -> & Hu). exists (firstn (78 - length dir) u). split.
  - rewrite firstn_app, firstn_all2 by lia. f_equal. replace (79 - length dir)%nat with (S (78 - length dir)) by lia. reflexivity.
  - intros I. apply (expands_noslash f (hex 8 t) rest u); auto; [exact (filename_noslash _ _ Hf)|apply (P_Out.hex_notslash 8 t)|]. rewrite <- (firstn_skipn (78 - length dir) u). apply in_or_app. auto.
Qed.
Print Assumptions C73_inside.

(** The areas that are added in one run are stored in different places if the path of the template
    has the number in it. *)
Theorem C73_unique : forall als files rs c c' t p,
  addall als files rs c 0 = Some (c', t) ->
  (forall a, In a (cf_areas c) -> isdefault (fa_tag a) -> fa_path a = p) -> Exists general (cf_areas c) ->
  Forall (fun c => 0 <= c < 256) p -> numbered p ->
  (forall r, In r rs -> ~ isdefault (rq_name r)) ->
  (forall r f s x, In r rs -> filename (rq_name r) f -> length s = 8%nat -> expands f s p x -> (length x <= 79)%nat) ->
  (forall r, hd_error rs = Some r -> 0 < rq_now r /\ rq_now r + Z.of_nat (length rs) <= 2 ^ 32) ->
  exists new, cf_areas c' = cf_areas c ++ new /\ map fa_tag new = map rq_name rs /\ NoDup (map fa_path new).
Proof.
  intros als files rs c c' t p H Ha Hg Hb Hn Hd Hf Ht. destruct (run_first (eq p) als files rs c c' t H) as (new & E1 & E2 & E3).
  - split; [|exact Hg]. intros a Ia Da. specialize (Ha a Ia Da). subst p. auto.
  - apply Forall_forall. intros r Ir. split; [auto|]. intros p' f s x <- F L X. eauto.
  - intros r Hr. apply (Ht r Hr).
  - exists new. split; [exact E1|]. split; [exact E2|]. destruct rs as [|r rs]; [destruct new; [constructor|discriminate]|]. destruct (Ht r eq_refl) as [T1 T2]. apply (made_nodup (eq p) new (length (r :: rs)) (sep_one p Hn) (rq_now r)); [lia|exact T2|exact E3].
Qed.
Print Assumptions C73_unique.
(** The same for templates with different paths, all of which end in the number. *)
Theorem C73_unique_end : forall als files rs c c' t,
  addall als files rs c 0 = Some (c', t) ->
  (forall a, In a (cf_areas c) -> isdefault (fa_tag a) -> Forall (fun c => 0 <= c < 256) (fa_path a) /\ exists q, fa_path a = q ++ lit "%8") -> Exists general (cf_areas c) ->
  (forall r, In r rs -> ~ isdefault (rq_name r)) ->
  (forall r f s q x, In r rs -> filename (rq_name r) f -> length s = 8%nat -> expands f s (q ++ lit "%8") x -> (exists a, In a (cf_areas c) /\ fa_path a = q ++ lit "%8") -> (length x <= 79)%nat) ->
  (forall r, hd_error rs = Some r -> 0 < rq_now r /\ rq_now r + Z.of_nat (length rs) <= 2 ^ 32) ->
  exists new, cf_areas c' = cf_areas c ++ new /\ map fa_tag new = map rq_name rs /\ NoDup (map fa_path new).
Proof.
  intros als files rs c c' t H Ha Hg Hd Hf Ht. pose (T := fun p => (exists q, p = q ++ [37; 56]) /\ exists a, In a (cf_areas c) /\ fa_path a = p).
  destruct (run_first T als files rs c c' t H) as (new & E1 & E2 & E3).
  - split; [|exact Hg]. intros a Ia Da. destruct (Ha a Ia Da) as [B (q & E)]. split; [|exact B]. split; [exists q; exact E|exists a; auto].
  - apply Forall_forall. intros r Ir. split; [auto|]. intros p' f s x ((q & ->) & I) F L X. apply (Hf r f s q x); auto.
  - intros r Hr. apply (Ht r Hr).
  - exists new. split; [exact E1|]. split; [exact E2|]. destruct rs as [|r rs]; [destruct new; [constructor|discriminate]|]. destruct (Ht r eq_refl) as [T1 T2]. apply (made_nodup T new (length (r :: rs))) with (s := rq_now r); [|lia|exact T2|exact E3].
    intros p q f1 f2 s1 s2 x y [Tp _] [Tq _]. apply sep_end; auto.
Qed.
Print Assumptions C73_unique_end.

(** The description comes from the first list of the sender that has one, otherwise from the
    template. *)
Theorem C73_description : forall c als files now lastt name addr mynode active pass a t,
  AddArea c als files now lastt name addr mynode active pass = Some (a, t) ->
  (forall al s, In al als -> files (sal_file al) = Some s -> exists ls, s = textfile ls /\ Forall plainline ls) ->
  exists sender tmpl, issender (cf_nodes c) addr sender /\ istemplate (cf_areas c) (fa_group a) tmpl /\
    ((exists al, firstthat (fun al => exists d, listsays files name sender al d) als al /\ listsays files name sender al (fa_desc a)) \/
     (Forall (fun al => forall d, ~ listsays files name sender al d) als /\ fa_desc a = match tmpl with Some d => fa_desc d | None => [] end)).
Proof.
  intros c als files now lastt name addr mynode active pass a t H Hf. destruct (area_all _ _ _ _ _ _ _ _ _ _ _ _ H) as (_ & _ & _ & _ & _ & _ & sd & tmpl & Hs & _ & Ht & _ & _ & _ & _ & _ & Ed & _).
  exists sd, tmpl. split; [exact Hs|]. split; [exact Ht|]. pose proof (desc_ok files name sd als Hf) as D. destruct (GetDescription als files name sd) as [d|]; [left; rewrite Ed; exact D|right; split; [exact D|exact Ed]].
Qed.
Print Assumptions C73_description.

(** ** A case *)
Definition boss : fnode := FN false (N4 2 5 6 0) [] None [] [] [] (lit "A") 65 0 [] 0 (N4 0 0 0 0) [] [].
Definition peer : fnode := FN false (N4 2 5 7 0) [] None [] [] (lit "A") (lit "AB") 0 0 [] 0 (N4 0 0 0 0) [] [].
Definition tmplA : farea := FA false 0 6 2 (lit "DEFAULT_AB") (lit "new") (Some 1%nat) (lit "/m/%8") 65 [] [] [] 100 30.
Definition tmplG : farea := FA false 0 2 2 (lit "default") [] None (lit "/m/%8") 0 [] [] [] 0 0.
Definition sampleconf : fconf := FC [N4 2 5 1 0; N4 2 5 1 1] [] [boss; peer] [tmplG; tmplA] [].
Definition samplefiles (f : list Z) : option (list Z) := if streq f (lit "na") then Some (lit "OTHER x" ++ [10] ++ lit "net.dev  Development" ++ [10]) else None.
Definition samplelists : list sarealist := [SAL 1 (lit "zz") 1 0; SAL 0 (lit "na") 1 65].
Definition samplereqs : list areq := [RQ 1000 (lit "NET.DEV") (N4 2 5 6 0) (N4 2 5 1 1) true false; RQ 1000 (lit "NET_DEV") (N4 2 5 9 0) (N4 2 5 1 0) false true].
Definition samplenew : list farea :=
  [FA true 1 6 2 (lit "NET.DEV") (lit "Development") (Some 1%nat) (lit "/m/000003e8") 65 [(0%nat, 4); (1%nat, 1)] [] [] 100 30;
   FA true 0 1 2 (lit "NET_DEV") [] None (lit "/m/000003e9") 0 [] [] [] 0 0].
Example C73_nonvacuous :
  addall samplelists samplefiles samplereqs sampleconf 0 = Some (setar sampleconf ([tmplG; tmplA] ++ samplenew), 1001) /\
  (forall al s, In al samplelists -> samplefiles (sal_file al) = Some s -> exists ls, s = textfile ls /\ Forall plainline ls) /\
  (forall a, In a (cf_areas sampleconf) -> isdefault (fa_tag a) -> fa_path a = lit "/m/%8") /\ numbered (lit "/m/%8") /\ Exists general (cf_areas sampleconf) /\
  (forall r, In r samplereqs -> ~ isdefault (rq_name r)).
Proof.
  split; [vm_compute; reflexivity|]. split.
  { intros al s [<-|[<-|[]]] E; cbn in E; [discriminate|]. injection E as <-. exists [lit "OTHER x"; lit "net.dev  Development"]. split; [reflexivity|]. repeat constructor; discriminate. }
  split; [intros a [<-|[<-|[]]] _; reflexivity|]. split.
  { change (numbered [47; 109; 47; 37; 56]). apply nu_next; [unfold special; lia|]. apply nu_next; [unfold special; lia|]. apply nu_next; [unfold special; lia|]. apply nu_here. auto. }
  split; [constructor; vm_compute; reflexivity|]. intros r [<-|[<-|[]]] [H|H]; vm_compute in H; discriminate.
Qed.

(** ** What goes wrong *)
(** without the number, areas with different names get the same path *)
Definition tmplN : farea := FA false 0 0 2 (lit "DEFAULT") [] (Some 0%nat) (lit "/m/%a") 0 [] [] [] 0 0.
Theorem C73_shared_refuted : exists c c' t a b,
  addall [] (fun _ => None) [RQ 1000 (lit "A.B") (N4 2 5 6 0) (N4 2 5 1 0) true false; RQ 1000 (lit "A_B") (N4 2 5 6 0) (N4 2 5 1 0) true false] c 0 = Some (c', t) /\
  cf_areas c' = cf_areas c ++ [a; b] /\ fa_tag a <> fa_tag b /\ fa_mb a = fa_mb b /\ fa_mb a <> None /\ fa_path a = fa_path b.
Proof.
  exists (FC [N4 2 5 1 0] [] [] [tmplN] []), (FC [N4 2 5 1 0] [] [] [tmplN; FA true 0 0 2 (lit "A.B") [] (Some 0%nat) (lit "/m/A_B") 0 [] [] [] 0 0; FA true 0 0 2 (lit "A_B") [] (Some 0%nat) (lit "/m/A_B") 0 [] [] [] 0 0] []), 1001,
    (FA true 0 0 2 (lit "A.B") [] (Some 0%nat) (lit "/m/A_B") 0 [] [] [] 0 0), (FA true 0 0 2 (lit "A_B") [] (Some 0%nat) (lit "/m/A_B") 0 [] [] [] 0 0).
  split; [vm_compute; reflexivity|]. split; [reflexivity|]. split; [discriminate|]. split; [reflexivity|]. split; [discriminate|reflexivity].
Qed.
Print Assumptions C73_shared_refuted.
(** a name of 80 characters is written past the end of the array *)
Theorem C73_name_refuted : exists c name, length name = 80%nat /\ cf_akas c <> [] /\
  forall als files now lastt addr mynode active pass, AddArea c als files now lastt name addr mynode active pass = None.
Proof. exists sampleconf, (repeat 65 80). split; [reflexivity|]. split; [discriminate|]. intros. reflexivity. Qed.
Print Assumptions C73_name_refuted.
(** a description loses a letter at its beginning that is not in ASCII *)
Theorem C73_accent_refuted : exists c al file line a t,
  AddArea c [al] (fun f => if streq f file then Some (line ++ [10]) else None) 1000 0 (lit "FOO") (N4 2 5 6 0) (N4 2 5 1 0) true false = Some (a, t) /\
  line = lit "FOO " ++ [214; 108; 101] /\ fa_desc a = [108; 101].
Proof.
  exists (FC [N4 2 5 1 0] [] [boss] [] []), (SAL 0 (lit "na") 1 65), (lit "na"), (lit "FOO " ++ [214; 108; 101]), (FA true 0 0 2 (lit "FOO") [108; 101] None [] 65 [(0%nat, 4)] [] [] 0 0), 0.
  split; [vm_compute; reflexivity|]. split; reflexivity.
Qed.
Print Assumptions C73_accent_refuted.
