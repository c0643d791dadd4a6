(** An area that is written is read back. *)
From Verif Require Import Base M_Node4D M_Str M_Mem M_Cfg M_Fs M_Out M_Upd S_Str S_Node4D P_Str P_Node4D S_Upd P_UpdTok P_UpdBlk P_UpdNode.

(** ** Lists, ten on a line *)
Definition tenline (key : list Z) (ws : list (list Z)) : list Z := key ++ spaced ws ++ [10].
Lemma tenline_cons key x cur r : tenline key (x :: cur) ++ r = key ++ 32 :: x ++ spaced cur ++ 10 :: r.
Proof. unfold tenline. cbn [spaced flat_map]. fold (spaced cur). rewrite <- !app_assoc. cbn [app]. rewrite <- ?app_assoc. reflexivity. Qed.
Lemma tens_run key items : forall c, (0 < c)%nat -> exists cur chunks,
  items = cur ++ concat chunks /\ Forall (fun ch => ch <> [] /\ (length ch <= 10)%nat) chunks /\
  ((c mod 10 = 0)%nat -> cur = []) /\ (c mod 10 + length cur <= 10)%nat /\
  tens key c items = spaced cur ++ [10] ++ concat (map (tenline key) chunks).
Proof.
  induction items as [|x r IH]; intros c Hc.
  - exists [], []. repeat split; auto. { cbn [length]. pose proof (Nat.mod_upper_bound c 10). lia. } destruct c; [lia|reflexivity].
  - destruct (IH (S c) ltac:(lia)) as (cur & chunks & -> & Hch & H0 & H1 & E). cbn [tens]. rewrite E. destruct c as [|c']; [lia|]. set (c := S c') in *.
    pose proof (Nat.mod_upper_bound c 10 ltac:(lia)) as Hb. pose proof (Nat.div_mod c 10 ltac:(lia)) as Hd.
    destruct (Nat.eqb_spec (c mod 10) 0) as [Em|Em].
    + exists [], ((x :: cur) :: chunks). cbn [concat app]. split; auto. split; [constructor; auto; split; [discriminate|]|].
      * assert (E1 : (S c mod 10 = 1)%nat) by (rewrite Hd, Em; replace (S (10 * (c / 10) + 0)) with (1 + (c / 10) * 10)%nat by lia; rewrite Nat.mod_add by lia; reflexivity). cbn [length]. lia.
      * split; auto. split; [cbn [length]; lia|]. cbn [map concat spaced flat_map app]. rewrite tenline_cons. rewrite <- ?app_assoc. reflexivity.
    + exists (x :: cur), chunks. split; auto. split; auto. split; [congruence|]. split.
      * destruct (Nat.eq_dec (c mod 10) 9) as [E9|E9].
        -- assert (E1 : (S c mod 10 = 0)%nat) by (rewrite Hd, E9; replace (S (10 * (c / 10) + 9)) with (0 + (c / 10 + 1) * 10)%nat by lia; rewrite Nat.mod_add by lia; reflexivity).
           rewrite (H0 E1). cbn [length]. lia.
        -- assert (E1 : (S c mod 10 = S (c mod 10))%nat).
           { rewrite Hd at 1. replace (S (10 * (c / 10) + c mod 10)) with (S (c mod 10) + (c / 10) * 10)%nat by lia. rewrite Nat.mod_add by lia. apply Nat.mod_small. lia. }
           cbn [length]. lia.
      * cbn [app spaced flat_map]. fold (spaced cur). rewrite <- app_assoc. reflexivity.
Qed.
Lemma tens_lines key items : exists chunks, items = concat chunks /\ Forall (fun ch => ch <> [] /\ (length ch <= 10)%nat) chunks /\
  tens key 0 items = concat (map (tenline key) chunks).
Proof.
  destruct items as [|x r]; [exists []; repeat split; constructor|]. destruct (tens_run key r 1 ltac:(lia)) as (cur & chunks & -> & Hch & _ & H1 & E).
  exists ((x :: cur) :: chunks). split; auto. split; [constructor; auto; split; [discriminate|]|].
  - change (1 mod 10)%nat with 1%nat in H1. cbn [length]. lia.
  - cbn [tens]. rewrite E. change (Nat.eqb (0 mod 10) 0) with true. cbv iota. cbn [map concat app]. rewrite tenline_cons. rewrite <- ?app_assoc. reflexivity.
Qed.

(** ** The nodes of an area *)
Lemma omap_ok {A B} (f : A -> option B) l : (forall x, In x l -> exists y, f x = Some y) -> exists l', omap f l = Some l' /\ Forall2 (fun x y => f x = Some y) l l'.
Proof.
  induction l as [|x l IH]; intros H; [exists []; split; auto|]. destruct (H x) as (y & Ey); [left; auto|]. destruct IH as (l' & E & F); [intros; apply H; right; auto|].
  exists (y :: l'). cbn [omap]. rewrite Ey. cbn [obind]. rewrite E. split; auto.
Qed.
Lemma addr_first n : valid4d n -> exists d r, WriteNode4D n = d :: r /\ digit d.
Proof.
  intros (H & _). unfold WriteNode4D. pose proof (dec_digits _ (u16_nonneg _ H)). pose proof (dec_ne _ (u16_nonneg _ H)). destruct (dec (zone n)) as [|d r]; [congruence|].
  inversion H0; subst. eexists _, _. split; [reflexivity|auto].
Qed.
Definition eflag (f : Z) : Prop := f = 0 \/ f = 1 \/ f = 2 \/ f = 4.
Lemma nolit d r : digit d -> match d :: r with 33 :: x => (TOSSNODE_READONLY, x) | _ => (0, d :: r) end = (0, d :: r).
Proof. unfold digit. intros H. destruct (Z.eq_dec d 33); [lia|]. destruct d as [|p|p]; auto. do 6 (destruct p as [p|p|]; auto). congruence. Qed.
Lemma exportprefix_item n f : valid4d n -> eflag f -> exists t, opt (flag f TOSSNODE_READONLY) "!" ++ opt (flag f TOSSNODE_WRITEONLY) "@" ++ opt (flag f TOSSNODE_FEED) "%" ++ WriteNode4D n = t /\
  exportprefix t = (f, WriteNode4D n) /\ plainword t /\ cl t /\ (length t <= 24)%nat.
Proof.
  intros Hn Hf. eexists. split; [reflexivity|]. pose proof (addr_length _ Hn) as Hl. pose proof (addr_wordchars _ Hn) as Hw. pose proof (cl_addr _ Hn) as Hc.
  destruct (addr_first n Hn) as (d & r & E & Hd).
  assert (N1 : forall (g : Z), match d :: r with 33 :: x => (TOSSNODE_READONLY, x) | _ => (g, d :: r) end = (g, d :: r)).
  { intros g. unfold digit in Hd. destruct (Z.eq_dec d 33); [lia|]. destruct d as [|p|p]; auto. do 6 (destruct p as [p|p|]; auto). congruence. }
  assert (N2 : forall (g : Z), match d :: r with 64 :: x => (TOSSNODE_WRITEONLY, x) | _ => (g, d :: r) end = (g, d :: r)).
  { intros g. unfold digit in Hd. destruct (Z.eq_dec d 64); [lia|]. destruct d as [|p|p]; auto. do 7 (destruct p as [p|p|]; auto). congruence. }
  assert (N3 : forall (g : Z), match d :: r with 37 :: x => (TOSSNODE_FEED, x) | _ => (g, d :: r) end = (g, d :: r)).
  { intros g. unfold digit in Hd. destruct (Z.eq_dec d 37); [lia|]. destruct d as [|p|p]; auto. do 6 (destruct p as [p|p|]; auto). congruence. }
  assert (P : forall c, wordchar c -> c <> 13 -> plainword (c :: WriteNode4D n) /\ cl (c :: WriteNode4D n) /\ (length (c :: WriteNode4D n) <= 24)%nat).
  { intros c Hx H13. split; [apply plainword_chars; [constructor; auto|discriminate]|]. split; [|cbn [length]; lia]. apply (cl_app [c]); auto.
    unfold wordchar in Hx. split; [constructor; [lia|constructor]|]. split; [cbn; lia|cbn; lia]. }
  destruct Hf as [->|[->|[->| ->]]].
  - change (opt (flag 0 TOSSNODE_READONLY) "!" ++ opt (flag 0 TOSSNODE_WRITEONLY) "@" ++ opt (flag 0 TOSSNODE_FEED) "%" ++ WriteNode4D n) with (WriteNode4D n).
    split; [|split; [apply addr_plain; auto|split; [auto|lia]]]. unfold exportprefix. rewrite E. rewrite N1, N2, N3. reflexivity.
  - change (opt (flag 1 TOSSNODE_READONLY) "!" ++ opt (flag 1 TOSSNODE_WRITEONLY) "@" ++ opt (flag 1 TOSSNODE_FEED) "%" ++ WriteNode4D n) with (33 :: WriteNode4D n).
    split; [|apply P; [unfold wordchar; lia|lia]]. unfold exportprefix. rewrite E. rewrite N2, N3. reflexivity.
  - change (opt (flag 2 TOSSNODE_READONLY) "!" ++ opt (flag 2 TOSSNODE_WRITEONLY) "@" ++ opt (flag 2 TOSSNODE_FEED) "%" ++ WriteNode4D n) with (64 :: WriteNode4D n).
    split; [|apply P; [unfold wordchar; lia|lia]]. unfold exportprefix. rewrite E. rewrite N3. reflexivity.
  - change (opt (flag 4 TOSSNODE_READONLY) "!" ++ opt (flag 4 TOSSNODE_WRITEONLY) "@" ++ opt (flag 4 TOSSNODE_FEED) "%" ++ WriteNode4D n) with (37 :: WriteNode4D n).
    split; [|apply P; [unfold wordchar; lia|lia]]. unfold exportprefix. rewrite E. reflexivity.
Qed.
(** what a word of an EXPORT line stands for *)
Definition eitem (nodes : list node4d) (x : nat * Z) (w : list Z) : Prop :=
  plainword w /\ cl w /\ (length w <= 24)%nat /\ exists n, valid4d n /\ exportprefix w = (snd x, WriteNode4D n) /\ findpos (fun k => Compare4D n k =? 0) nodes = Some (fst x).
Lemma exports_items nodes l ws : Forall2 (eitem nodes) l ws -> forall tpl, exports nodes tpl ws = Some l.
Proof.
  induction 1 as [|[i f] w l ws (_ & _ & _ & n & Hn & Ep & Ef) Hws IH]; intros tpl; [reflexivity|]. cbn [exports]. rewrite Ep. rewrite write_parse by auto. cbn [obind].
  cbn [fst snd] in *. rewrite Ef. cbn [obind]. rewrite IH. reflexivity.
Qed.
Definition bitem (nodes : list node4d) (i : nat) (w : list Z) : Prop :=
  plainword w /\ cl w /\ (length w <= 24)%nat /\ exists n, valid4d n /\ w = WriteNode4D n /\ findpos (fun k => Compare4D n k =? 0) nodes = Some i.
Lemma bans_items nodes l ws : Forall2 (bitem nodes) l ws -> bans nodes ws = Some l.
Proof.
  induction 1 as [|i w l ws (_ & _ & _ & n & Hn & -> & Ef) Hws IH]; [reflexivity|]. cbn [bans]. unfold Parse4D. rewrite write_parse by auto. cbn [obind]. rewrite Ef. cbn [obind]. rewrite IH. reflexivity.
Qed.

Lemma lastarea_app f c l x y : f x = Some y -> lastarea f (setareas c (l ++ [x])) = Some (setareas c (l ++ [y])).
Proof. intros H. unfold lastarea. cbn [cf_areas setareas]. rewrite onlast_app, H. reflexivity. Qed.
Definition witharea (c : fconf) (l : list farea) (x : farea) : fconf := setareas c (l ++ [x]).
Lemma Forall2_concat_split {A B} (R : A -> B -> Prop) l (chunks : list (list B)) : Forall2 R l (concat chunks) -> exists ls, l = concat ls /\ Forall2 (Forall2 R) ls chunks.
Proof.
  revert l. induction chunks as [|ch chunks IH]; intros l H; cbn [concat] in H; [inversion H; exists []; auto|].
  apply Forall2_app_inv_r in H as (l1 & l2 & H1 & H2 & ->). destruct (IH l2 H2) as (ls & -> & F). exists (l1 :: ls). auto.
Qed.

Section Area.
  Variable okother : list (list Z) -> list node4d -> list (list Z) -> list node4d -> list Z -> bool.
  Notation blk := (blk okother).

  (** EXPORT and BANNED lines *)
  Lemma line10 k ws (R : Prop) : Forall (fun w => plainword w /\ cl w /\ (length w <= 24)%nat) ws -> ws <> [] -> (length ws <= 10)%nat ->
    plainword (lit k) -> (length (lit k) < 30)%nat -> existsb (streqi (lit k)) (areakeywords ++ nodekeywords ++ [lit "LOCALAREA"]) = true -> cl (lit k) ->
    forall c c', (forall src, tok 30 (tenline (lit k) ws) = (lit k, true, src) -> allwords 100 src = ws -> rdline okother c (tenline (lit k) ws) = ROk c') ->
    blk c (tenline (lit k) ws) c'.
  Proof using Type.
    intros Hw Hne Hlen P1 P2 P3 P4 c c' Hr. destruct ws as [|w ws]; [congruence|]. unfold tenline in *. cbn [spaced flat_map] in *. fold (spaced ws) in *.
    replace (lit k ++ ((32 :: w) ++ spaced ws) ++ [10]) with (lit k ++ 32 :: (w ++ spaced ws) ++ [10]) in * by reflexivity.
    inversion Hw as [|x y (W1 & W2 & W3) Hws]; subst.
    assert (Hc : cl (w ++ spaced ws)) by (apply cl_app; auto; apply cl_spaced; eapply Forall_impl; [|exact Hws]; cbn beta; tauto).
    apply blk_kw; auto.
    - apply cl_sp; auto.
    - assert (length (spaced ws) <= 25 * length ws)%nat by (apply spaced_bound; eapply Forall_impl; [|exact Hws]; cbn beta; intros; lia). cbn [length] in Hlen. rewrite app_length. lia.
    - intros Et. eapply Hr; [exact Et|]. rewrite <- app_assoc. apply allwords_spaced1; [lia|]. eapply Forall_impl; [|exact Hw]. cbn beta. intros z (A & _ & B). split; auto. lia.
  Qed.
  Definition addtoss (x : farea) (l : list (nat * Z)) : farea :=
    FA (fa_changed x) (fa_aka x) (fa_flags x) (fa_type x) (fa_tag x) (fa_desc x) (fa_mb x) (fa_path x)
           (fa_group x) (fa_toss x ++ l) (fa_import x) (fa_banned x) (fa_keepnum x) (fa_keepdays x).
  Definition addban (x : farea) (l : list nat) : farea :=
    FA (fa_changed x) (fa_aka x) (fa_flags x) (fa_type x) (fa_tag x) (fa_desc x) (fa_mb x) (fa_path x)
           (fa_group x) (fa_toss x) (fa_import x) (fa_banned x ++ l) (fa_keepnum x) (fa_keepdays x).
  Lemma export_blk c l nodes ls chunks : nodes = map fn_node (cf_nodes c) -> Forall2 (Forall2 (eitem nodes)) ls chunks -> Forall (fun ch => ch <> [] /\ (length ch <= 10)%nat) chunks ->
    forall x, ordinary (fa_type x) -> blk (witharea c l x) (concat (map (tenline (lit "EXPORT")) chunks)) (witharea c l (addtoss x (concat ls))).
  Proof using Type.
    intros En H. induction H as [|tl ch ls chunks Hch Hrest IH]; intros Hc x Hx; cbn [map concat].
    - replace (addtoss x []) with x; [apply blk_nil|]. unfold addtoss. rewrite app_nil_r. destruct x; reflexivity.
    - inversion Hc as [|? ? (C1 & C2) C3]; subst. replace (addtoss x (tl ++ concat ls)) with (addtoss (addtoss x tl) (concat ls)) by (unfold addtoss; cbn; rewrite app_assoc; reflexivity).
      eapply blk_app; [|apply IH; auto].
      apply (line10 "EXPORT" ch True); auto; try kwok.
      + clear -Hch. induction Hch as [|a b l r (A & B & C & _) _ IH]; constructor; auto.
      + intros src Et Ew. unfold rdline. rewrite Et.
        match goal with |- _ = ROk ?res => change (rof (lastarea (rdExport (map fn_node (cf_nodes c)) src) (setareas c (l ++ [x]))) = ROk res) end.
        erewrite lastarea_app; [reflexivity|]. unfold rdExport. replace ((fa_type x =? AREATYPE_ECHOMAIL) || (fa_type x =? AREATYPE_DEFAULT)) with true by (destruct Hx as [-> | ->]; reflexivity).
        rewrite Ew, (exports_items _ _ _ Hch). reflexivity.
  Qed.
  Lemma banned_blk c l nodes ls chunks : nodes = map fn_node (cf_nodes c) -> Forall2 (Forall2 (bitem nodes)) ls chunks -> Forall (fun ch => ch <> [] /\ (length ch <= 10)%nat) chunks ->
    forall x, blk (witharea c l x) (concat (map (tenline (lit "BANNED")) chunks)) (witharea c l (addban x (concat ls))).
  Proof using Type.
    intros En H. induction H as [|tl ch ls chunks Hch Hrest IH]; intros Hc x; cbn [map concat].
    - replace (addban x []) with x; [apply blk_nil|]. unfold addban. rewrite app_nil_r. destruct x; reflexivity.
    - inversion Hc as [|? ? (C1 & C2) C3]; subst. replace (addban x (tl ++ concat ls)) with (addban (addban x tl) (concat ls)) by (unfold addban; cbn; rewrite app_assoc; reflexivity).
      eapply blk_app; [|apply IH; auto].
      apply (line10 "BANNED" ch True); auto; try kwok.
      + clear -Hch. induction Hch as [|a b l r (A & B & C & _) _ IH]; constructor; auto.
      + intros src Et Ew. unfold rdline. rewrite Et.
        match goal with |- _ = ROk ?res => change (rof (lastarea (rdBanned (map fn_node (cf_nodes c)) src) (setareas c (l ++ [x]))) = ROk res) end.
        erewrite lastarea_app; [reflexivity|]. unfold rdBanned. rewrite Ew, (bans_items _ _ _ Hch). reflexivity.
  Qed.

  (** the heading *)
  Lemma areatype_tag k tag mb path t : k = "AREA"%string -> tagtype tag t -> (t = AREATYPE_BAD -> path <> []) -> areatype (lit k) tag mb path = Some t.
  Proof using Type.
    intros ->. unfold tagtype, areatype. change (kw (lit "AREA") "NETMAIL") with false. change (kw (lit "AREA") "LOCALAREA") with false. cbv iota. unfold kw.
    destruct (streqi tag (lit "BAD")); [intros -> H; destruct path; [exfalso; apply H; auto|reflexivity]|]. destruct (streqi tag (lit "DEFAULT") || strneqi 8 tag (lit "DEFAULT_")); intros ->; reflexivity.
  Qed.
  Definition mbtext (mb : option nat) (path : list Z) : option (list Z) :=
    match mb with None => Some [] | Some i => do nm <- nth_error mbnames i; do q <- WriteSafely path; Some (lit " " ++ nm ++ lit " " ++ q) end.
  Lemma mb_ok mb path : match mb with Some i => (i < length mbnames)%nat /\ field 80 path | None => path = [] end ->
    exists t, mbtext mb path = Some t /\ cl t /\ (length t <= 200)%nat /\ (t = [] /\ mb = None \/ exists i nm, mb = Some i /\ findpos (streqi nm) mbnames = Some i /\ plainword nm /\ cl nm /\ (length nm < 10)%nat /\ t = 32 :: nm ++ 32 :: q path).
  Proof using Type.
    destruct mb as [i|]; cbn [mbtext].
    - intros [Hi Hp]. destruct (nth_error mbnames i) as [nm|] eqn:E; [|apply nth_error_None in E; lia]. cbn [obind]. rewrite (WS 80 path) by (auto; lia). cbn [obind]. eexists. split; [reflexivity|].
      assert (N : findpos (streqi nm) mbnames = Some i /\ plainword nm /\ cl nm /\ (length nm < 10)%nat).
      { destruct i as [|[|i]]; cbn in E; [injection E as <-|injection E as <-|cbn in Hi; lia].
        - split; [reflexivity|]. split; [apply (lit_plain "MSG"); [reflexivity|discriminate]|]. split; [apply (cl_lit "MSG"); reflexivity|cbn; lia].
        - split; [reflexivity|]. split; [apply (lit_plain "JAM"); [reflexivity|discriminate]|]. split; [apply (cl_lit "JAM"); reflexivity|cbn; lia]. }
      destruct N as (N1 & N2 & N3 & N4). pose proof (cl_field _ _ Hp). pose proof (q_length _ _ Hp).
      replace (lit " " ++ nm ++ lit " " ++ q path) with (32 :: nm ++ 32 :: q path) by reflexivity.
      split; [apply cl_sp, cl_app; auto; apply cl_sp; auto|]. split; [cbn [length]; rewrite app_length; cbn [length]; lia|]. right. exists i, nm. split; [reflexivity|]. split; [exact N1|]. split; [exact N2|]. split; [exact N3|]. split; [exact N4|reflexivity].
    - intros ->. exists []. split; auto. split; [apply cl_nil|]. split; [cbn; lia|auto].
  Qed.
  Lemma head_area c k tag aka ai mb path t mt : plainword (lit k) -> (length (lit k) < 30)%nat -> existsb (streqi (lit k)) (areakeywords ++ nodekeywords ++ [lit "LOCALAREA"]) = true -> cl (lit k) ->
    (forall src, tok 30 (lit k ++ 32 :: src) = (lit k, true, src) -> rdline okother c (lit k ++ 32 :: src) = rof (rdArea (lit k) c src)) ->
    field 80 tag -> valid4d aka -> findpos (fun x => Compare4D aka x =? 0) (cf_akas c) = Some ai ->
    match mb with Some i => (i < length mbnames)%nat /\ field 80 path | None => path = [] end -> mbtext mb path = Some mt -> areatype (lit k) tag mb path = Some t ->
    blk c (lit k ++ 32 :: q tag ++ 32 :: WriteNode4D aka ++ mt ++ [10]) (setareas c (cf_areas c ++ [FA false ai 0 t tag [] mb path 0 [] [] [] 0 0])).
  Proof using Type.
    intros P1 P2 P3 P4 Hr Ht Ha Hf Hmb Emt Ety. destruct (mb_ok mb path Hmb) as (mt' & E & M1 & M2 & M3). rewrite Emt in E. injection E as <-.
    replace (lit k ++ 32 :: q tag ++ 32 :: WriteNode4D aka ++ mt ++ [10]) with (lit k ++ 32 :: (q tag ++ 32 :: WriteNode4D aka ++ mt) ++ [10]) by (repeat (rewrite <- ?app_assoc; cbn [app]); reflexivity).
    pose proof (cl_field _ _ Ht) as Ct. pose proof (cl_addr _ Ha) as Ca.
    apply blk_kw; auto.
    - apply cl_sp, cl_app; auto. apply cl_sp, cl_app; auto.
    - pose proof (addr_length _ Ha). pose proof (q_length _ _ Ht). rewrite app_length. cbn [length]. rewrite app_length. lia.
    - intros Et. rewrite Hr by exact Et. unfold rdArea.
      replace ((q tag ++ 32 :: WriteNode4D aka ++ mt) ++ [10]) with (q tag ++ 32 :: WriteNode4D aka ++ (mt ++ [10])) by (repeat (rewrite <- ?app_assoc; cbn [app]); reflexivity).
      pose proof (cs_nl _ M1) as C1.
      assert (C2 : cstring (32 :: WriteNode4D aka ++ mt ++ [10])) by (constructor; [lia|]; apply cstring_app; split; [apply Ca|auto]).
      rewrite tok_q by (auto; lia). destruct M3 as [(-> & ->)|(i & nm & -> & F & Pn & Cn & Ln & ->)].
      + cbn [app]. rewrite tok_skip by auto. rewrite tok_plain; [|apply addr_plain; auto|constructor|pose proof (addr_length _ Ha); lia|lia|auto]. change (10 =? 32) with false. cbv iota beta.
        unfold Parse4D. rewrite write_parse by auto. cbn [obind]. rewrite Hf. cbn [obind]. rewrite tok_end by lia. cbn [obind fst snd]. rewrite Hmb in Ety |- *. rewrite Ety. cbn [obind]. reflexivity.
      + cbn [app]. rewrite tok_skip by auto.
        destruct Hmb as [_ Hp]. pose proof (proj1 (cl_field _ _ Hp)) as C3.
        assert (C4 : cstring ((nm ++ 32 :: q path) ++ [10])) by (inversion C1; auto).
        rewrite tok_plain; [|apply addr_plain; auto|auto|pose proof (addr_length _ Ha); lia|lia|auto]. change (32 =? 32) with true. cbv iota beta.
        unfold Parse4D. rewrite write_parse by auto. cbn [obind]. rewrite Hf. cbn [obind]. rewrite <- app_assoc. cbn [app].
        rewrite tok_plain; [|auto|apply (cs_nl (q path)); eapply cl_field; eauto|lia|lia|auto]. change (32 =? 32) with true. cbv iota beta. rewrite F. cbn [obind].
        rewrite tok_q; [|auto|constructor; [lia|constructor]|lia]. cbn [obind fst snd]. rewrite Ety. reflexivity.
  Qed.

  (** the other lines *)
  Lemma desc_blk c l x s : field 80 s -> fa_desc x = [] ->
    exists t, (if ne s then do q <- WriteSafely s; Some (lit "DESCRIPTION " ++ q ++ [10]) else Some []) = Some t /\
    blk (witharea c l x) t (witharea c l (FA (fa_changed x) (fa_aka x) (fa_flags x) (fa_type x) (fa_tag x) s (fa_mb x) (fa_path x)
           (fa_group x) (fa_toss x) (fa_import x) (fa_banned x) (fa_keepnum x) (fa_keepdays x))).
  Proof using Type.
    intros Hs Hx. destruct (ne s) eqn:E.
    - rewrite (WS 80 s) by (auto; lia). cbn [obind]. eexists. split; [reflexivity|].
      change (lit "DESCRIPTION " ++ q s ++ [10]) with (lit "DESCRIPTION" ++ 32 :: q s ++ [10]). apply blk_kw; try kwok.
      + apply cl_sp. eapply cl_field; eauto.
      + pose proof (q_length _ _ Hs). litc. cbn [length]. lia.
      + intros Et. unfold rdline. rewrite Et.
        match goal with |- _ = ROk ?res => change (rof (lastarea (rdDescription (q s ++ [10])) (setareas c (l ++ [x]))) = ROk res) end.
        unfold witharea. erewrite lastarea_app; [reflexivity|]. unfold rdDescription. rewrite tok_q; [reflexivity|auto|constructor; [lia|constructor]|lia].
    - destruct s; [|discriminate]. exists []. split; auto. destruct x; cbn in *. subst. apply blk_nil.
  Qed.
  Lemma group_blk c l x g : group g -> fa_group x = 0 ->
    blk (witharea c l x) (if g =? 0 then [] else lit "GROUP " ++ [g] ++ [10])
        (witharea c l (FA (fa_changed x) (fa_aka x) (fa_flags x) (fa_type x) (fa_tag x) (fa_desc x) (fa_mb x) (fa_path x)
           g (fa_toss x) (fa_import x) (fa_banned x) (fa_keepnum x) (fa_keepdays x))).
  Proof using Type.
    intros Hg Hx. destruct (Z.eqb_spec g 0) as [->|Hne].
    - rewrite <- Hx. destruct x; cbn. apply blk_nil.
    - destruct Hg as [|Hg]; [congruence|]. destruct (group1 g Hg) as (P1 & P2 & P3).
      change (lit "GROUP " ++ [g] ++ [10]) with (lit "GROUP" ++ 32 :: [g] ++ [10]). apply blk_kw; try kwok.
      + apply cl_sp. auto.
      + litc. cbn [length]. lia.
      + intros Et. unfold rdline. rewrite Et.
        match goal with |- _ = ROk ?res => change (rof (lastarea (rdGroup ([g] ++ [10])) (setareas c (l ++ [x]))) = ROk res) end.
        unfold witharea. erewrite lastarea_app; [reflexivity|]. unfold rdGroup. rewrite tok_plain; [|auto|constructor|cbn; lia|lia|auto]. rewrite P3. reflexivity.
  Qed.
  Lemma dec_word v : is_u32 v -> plainword (dec v) /\ cl (dec v) /\ (length (dec v) <= 10)%nat /\ u32 (atoi (dec v)) = v.
  Proof using Type.
    intros H. assert (0 <= v) by (unfold is_u32 in H; lia). split; [apply plainword_chars; [apply digit_wordchar, dec_digits; auto|apply dec_ne; auto]|]. split; [apply cl_dec; auto|].
    split; [apply dec_length_u32; auto|]. rewrite atoi_dec by auto. unfold u32, is_u32 in *. apply Z.mod_small. lia.
  Qed.
  Lemma keepnum_blk c l x v : is_u32 v -> fa_keepnum x = 0 ->
    blk (witharea c l x) (if v =? 0 then [] else lit "KEEPNUM " ++ dec v ++ [10])
        (witharea c l (FA (fa_changed x) (fa_aka x) (fa_flags x) (fa_type x) (fa_tag x) (fa_desc x) (fa_mb x) (fa_path x)
           (fa_group x) (fa_toss x) (fa_import x) (fa_banned x) v (fa_keepdays x))).
  Proof using Type.
    intros Hv Hx. destruct (Z.eqb_spec v 0) as [->|Hne].
    - rewrite <- Hx. destruct x; cbn. apply blk_nil.
    - destruct (dec_word v Hv) as (P1 & P2 & P3 & P4).
      change (lit "KEEPNUM " ++ dec v ++ [10]) with (lit "KEEPNUM" ++ 32 :: dec v ++ [10]). apply blk_kw; try kwok.
      + apply cl_sp. auto.
      + litc. cbn [length]. lia.
      + intros Et. unfold rdline. rewrite Et.
        match goal with |- _ = ROk ?res => change (rof (lastarea (rdKeepNum (dec v ++ [10])) (setareas c (l ++ [x]))) = ROk res) end.
        unfold witharea. erewrite lastarea_app; [reflexivity|]. unfold rdKeepNum. rewrite tok_plain; [|auto|constructor|lia|lia|auto]. rewrite P4. reflexivity.
  Qed.
  Lemma keepdays_blk c l x v : is_u32 v -> fa_keepdays x = 0 ->
    blk (witharea c l x) (if v =? 0 then [] else lit "KEEPDAYS " ++ dec v ++ [10])
        (witharea c l (FA (fa_changed x) (fa_aka x) (fa_flags x) (fa_type x) (fa_tag x) (fa_desc x) (fa_mb x) (fa_path x)
           (fa_group x) (fa_toss x) (fa_import x) (fa_banned x) (fa_keepnum x) v)).
  Proof using Type.
    intros Hv Hx. destruct (Z.eqb_spec v 0) as [->|Hne].
    - rewrite <- Hx. destruct x; cbn. apply blk_nil.
    - destruct (dec_word v Hv) as (P1 & P2 & P3 & P4).
      change (lit "KEEPDAYS " ++ dec v ++ [10]) with (lit "KEEPDAYS" ++ 32 :: dec v ++ [10]). apply blk_kw; try kwok.
      + apply cl_sp. auto.
      + litc. cbn [length]. lia.
      + intros Et. unfold rdline. rewrite Et.
        match goal with |- _ = ROk ?res => change (rof (lastarea (rdKeepDays (dec v ++ [10])) (setareas c (l ++ [x]))) = ROk res) end.
        unfold witharea. erewrite lastarea_app; [reflexivity|]. unfold rdKeepDays. rewrite tok_plain; [|auto|constructor|lia|lia|auto]. rewrite P4. reflexivity.
  Qed.
  Definition withflags (x : farea) (f : Z) : farea := FA (fa_changed x) (fa_aka x) f (fa_type x) (fa_tag x) (fa_desc x) (fa_mb x) (fa_path x)
           (fa_group x) (fa_toss x) (fa_import x) (fa_banned x) (fa_keepnum x) (fa_keepdays x).
  Lemma flag_blk c l x a bit k fl : plainword (lit k) -> (length (lit k) < 30)%nat -> existsb (streqi (lit k)) (areakeywords ++ nodekeywords ++ [lit "LOCALAREA"]) = true -> cl (lit k) ->
    (forall d, tok 30 (lit k ++ [10]) = (lit k, true, [10]) -> rdline okother d (lit k ++ [10]) = rof (lastarea (areaflag bit) d)) ->
    blk (witharea c l (withflags x fl)) (flagline a bit k) (witharea c l (withflags x (Z.lor fl (sel (fa_flags a) bit)))).
  Proof using Type.
    intros P1 P2 P3 P4 Hr. unfold flagline, sel. destruct (flag (fa_flags a) bit).
    - apply blk_kw0; auto. intros Et. rewrite Hr by exact Et. unfold witharea. erewrite lastarea_app; [reflexivity|]. reflexivity.
    - rewrite Z.lor_0_r. apply blk_nil.
  Qed.
  Lemma area_bits f : 0 <= f < 32 ->
    Z.lor (Z.lor (Z.lor (Z.lor (Z.lor 0 (sel f AREA_UNCONFIRMED)) (sel f AREA_MANDATORY)) (sel f AREA_DEFREADONLY)) (sel f AREA_IGNOREDUPES)) (sel f AREA_IGNORESEENBY) = f.
  Proof using Type.
    intros Hf. transitivity (bits_of f [0; 1; 2; 3; 4]); [|apply (bits_all f 5); [exact Hf|lia|repeat (constructor; [lia|]); constructor|]].
    - rewrite Z.lor_0_l, <- !Z.lor_assoc. cbn [bits_of]. rewrite Z.lor_0_r. reflexivity.
    - intros n Hn. assert (n = 0 \/ n = 1 \/ n = 2 \/ n = 3 \/ n = 4) as [->|[->|[->|[->| ->]]]] by lia; reflexivity.
  Qed.

  (** what an area refers to is known by the same positions in [c] *)
  Definition knows (c : fconf) (akas nodes : list node4d) (a : farea) : Prop :=
    (forall n, found n akas (fa_aka a) -> found n (cf_akas c) (fa_aka a)) /\
    (forall i f n, In (i, f) (fa_toss a) -> found n nodes i -> found n (map fn_node (cf_nodes c)) i) /\
    (forall i n, In i (fa_banned a) -> found n nodes i -> found n (map fn_node (cf_nodes c)) i).

  Theorem area_block akas nodes a c : goodarea akas nodes a -> knows c akas nodes a ->
    exists t, WriteArea akas nodes a = Some t /\ blk c t (setareas c (cf_areas c ++ [doneA a])).
  Proof using Type.
    intros (H1 & (aka & H2) & H3 & H4 & H5 & H6 & H7 & H8 & H9 & H10 & H11 & H12 & H13) (K1 & K2 & K3). unfold WriteArea.
    pose proof (K1 _ H2) as F2. destruct H2 as (E2 & V2 & _). rewrite E2. cbn [obind]. rewrite (WS 80 (fa_tag a)) by (auto; lia). cbn [obind].
    change (match fa_mb a with None => Some [] | Some i => do nm <- nth_error mbnames i; do q <- WriteSafely (fa_path a); Some (lit " " ++ nm ++ lit " " ++ q) end) with (mbtext (fa_mb a) (fa_path a)).
    destruct (mb_ok _ _ H5) as (mt & Emt & _). rewrite Emt. cbn [obind].
    assert (Hnet : fa_type a =? AREATYPE_NETMAIL = false).
    { destruct H13 as [[-> _]|[Ht _]]; [reflexivity|]. unfold tagtype in Ht. destruct (streqi _ _); [rewrite Ht; reflexivity|]. destruct (_ || _); rewrite Ht; reflexivity. }
    rewrite Hnet. change (opt false "NETMAIL ") with (@nil Z). cbn [app].
    set (nds := map fn_node (cf_nodes c)) in *.
    (* heading *)
    assert (B1 : blk c ((if fa_type a =? AREATYPE_LOCAL then lit "LOCALAREA " else lit "AREA ") ++ q (fa_tag a) ++ lit " " ++ WriteNode4D aka ++ mt ++ [10])
                     (witharea c (cf_areas c) (FA false (fa_aka a) 0 (fa_type a) (fa_tag a) [] (fa_mb a) (fa_path a) 0 [] [] [] 0 0))).
    { destruct (Z.eqb_spec (fa_type a) AREATYPE_LOCAL) as [El|El].
      - change (lit "LOCALAREA " ++ q (fa_tag a) ++ lit " " ++ WriteNode4D aka ++ mt ++ [10]) with (lit "LOCALAREA" ++ 32 :: q (fa_tag a) ++ 32 :: WriteNode4D aka ++ mt ++ [10]).
        apply head_area; auto; try kwok.
        + apply found_pos; auto.
        + destruct H13 as [[_ Hm]|[Ht _]].
          * rewrite El. unfold areatype. change (kw (lit "LOCALAREA") "NETMAIL") with false. change (kw (lit "LOCALAREA") "LOCALAREA") with true. cbv iota. destruct (fa_mb a); [reflexivity|congruence].
          * exfalso. unfold tagtype in Ht. rewrite El in Ht. destruct (streqi _ _); [discriminate|]. destruct (_ || _); discriminate.
      - change (lit "AREA " ++ q (fa_tag a) ++ lit " " ++ WriteNode4D aka ++ mt ++ [10]) with (lit "AREA" ++ 32 :: q (fa_tag a) ++ 32 :: WriteNode4D aka ++ mt ++ [10]).
        apply head_area; auto; try kwok.
        + apply found_pos; auto.
        + destruct H13 as [[Hl _]|[Ht Hb]]; [congruence|]. apply areatype_tag; auto. }
    match type of B1 with P_UpdBlk.blk _ _ _ (witharea c _ ?x) => set (x1 := x) in * end.
    (* nodes *)
    assert (B2 : exists t, (if (fa_type a =? AREATYPE_ECHOMAIL) || (fa_type a =? AREATYPE_DEFAULT) then do l <- omap (exportitem nodes) (fa_toss a); Some (tens (lit "EXPORT") 0 l) else Some []) = Some t /\
                           blk (witharea c (cf_areas c) x1) t (witharea c (cf_areas c) (addtoss x1 (fa_toss a)))).
    { destruct ((fa_type a =? AREATYPE_ECHOMAIL) || (fa_type a =? AREATYPE_DEFAULT)) eqn:Eo.
      - assert (Ho : ordinary (fa_type x1)).
        { apply orb_true_iff in Eo as [E|E]; apply Z.eqb_eq in E; [left|right]; exact E. }
        destruct (omap_ok (exportitem nodes) (fa_toss a)) as (ws & Ew & Fw).
        { intros [i f] Hi. destruct (H8 i f Hi) as [(n & En & _) _]. unfold exportitem. cbn [fst snd]. rewrite En. cbn [obind]. eauto. }
        rewrite Ew. cbn [obind]. eexists. split; [reflexivity|].
        assert (Fi : Forall2 (eitem nds) (fa_toss a) ws).
        { clear Ew. revert ws Fw. assert (Hs : forall i f, In (i, f) (fa_toss a) -> exists n, found n nodes i /\ found n nds i /\ eflag f).
          { intros i f Hi. destruct (H8 i f Hi) as [(n & Hn) Hf]. exists n. split; auto. split; [eapply K2; eauto|auto]. }
          clear -Hs. induction (fa_toss a) as [|[i f] r IH]; intros ws Fw; inversion Fw as [|? w ? ws' Ex Fr]; subst; constructor.
          - destruct (Hs i f) as (n & (En & _) & Fn & Hf); [left; auto|]. unfold exportitem in Ex. cbn [fst snd] in Ex. rewrite En in Ex. cbn [obind] in Ex. injection Ex as <-.
            pose proof (proj1 (proj2 Fn)) as Hv. destruct (exportprefix_item n f Hv Hf) as (w & -> & W1 & W2 & W3 & W4). split; auto. split; auto. split; auto. exists n. split; auto. split; auto. apply found_pos. auto.
          - apply IH; auto. intros. apply Hs. right. auto. }
        destruct (tens_lines (lit "EXPORT") ws) as (chunks & Ec & Hc & ->). rewrite Ec in Fi. apply Forall2_concat_split in Fi as (ls & -> & Fl).
        apply (export_blk c (cf_areas c) nds); auto.
      - exists []. split; auto. destruct H12 as [[E|E]| ->]; [rewrite E in Eo; discriminate|rewrite E in Eo; discriminate|]. apply blk_nil. }
    destruct B2 as (t2 & -> & B2). cbn [obind].
    match type of B2 with P_UpdBlk.blk _ _ _ (witharea c _ ?x) => set (x2 := x) in * end.
    destruct (omap_ok (nth_error nodes) (fa_banned a)) as (bl & Eb & Fb).
    { intros i Hi. destruct (H9 i Hi) as (n & En & _). eauto. }
    rewrite Eb. cbn [obind].
    assert (B3 : blk (witharea c (cf_areas c) x2) (tens (lit "BANNED") 0 (map WriteNode4D bl)) (witharea c (cf_areas c) (addban x2 (fa_banned a)))).
    { assert (Fi : Forall2 (bitem nds) (fa_banned a) (map WriteNode4D bl)).
      { clear Eb. revert bl Fb. assert (Hs : forall i, In i (fa_banned a) -> exists n, found n nodes i /\ found n nds i).
        { intros i Hi. destruct (H9 i Hi) as (n & Hn). exists n. split; auto. }
        clear -Hs. induction (fa_banned a) as [|i r IH]; intros bl Fb; inversion Fb as [|? w ? ws' Ex Fr]; subst; constructor.
        - destruct (Hs i) as (n & (En & _) & Fn); [left; auto|]. rewrite En in Ex. injection Ex as <-. pose proof (proj1 (proj2 Fn)) as Hv.
          split; [apply addr_plain; auto|]. split; [apply cl_addr; auto|]. split; [pose proof (addr_length _ Hv); lia|]. exists n. split; auto. split; auto. apply found_pos. auto.
        - apply IH; auto. intros. apply Hs. right. auto. }
      destruct (tens_lines (lit "BANNED") (map WriteNode4D bl)) as (chunks & Ec & Hc & ->). rewrite Ec in Fi. apply Forall2_concat_split in Fi as (ls & -> & Fl).
      apply (banned_blk c (cf_areas c) nds); auto. }
    match type of B3 with P_UpdBlk.blk _ _ _ (witharea c _ ?x) => set (x3 := x) in * end.
    destruct (desc_blk c (cf_areas c) x3 _ H4 eq_refl) as (t4 & -> & B4). cbn [obind].
    match type of B4 with P_UpdBlk.blk _ _ _ (witharea c _ ?x) => set (x4 := x) in * end.
    pose proof (group_blk c (cf_areas c) x4 _ H6 eq_refl) as B5.
    match type of B5 with P_UpdBlk.blk _ _ _ (witharea c _ ?x) => set (x5 := x) in * end.
    pose proof (keepnum_blk c (cf_areas c) x5 _ H10 eq_refl) as B6.
    match type of B6 with P_UpdBlk.blk _ _ _ (witharea c _ ?x) => set (x6 := x) in * end.
    pose proof (keepdays_blk c (cf_areas c) x6 _ H11 eq_refl) as B7.
    match type of B7 with P_UpdBlk.blk _ _ _ (witharea c _ ?x) => set (x7 := x) in *; change x7 with (withflags x7 0) in B7 end.
    eexists. split; [reflexivity|].
    eapply blk_app; [exact B1|]. eapply blk_app; [exact B2|]. eapply blk_app; [exact B3|]. eapply blk_app; [exact B4|]. eapply blk_app; [exact B5|]. eapply blk_app; [exact B6|]. eapply blk_app; [exact B7|].
    eapply blk_app; [apply flag_blk; try kwok; reflexivity|]. eapply blk_app; [apply flag_blk; try kwok; reflexivity|]. eapply blk_app; [apply flag_blk; try kwok; reflexivity|]. eapply blk_app; [apply flag_blk; try kwok; reflexivity|].
    match goal with |- P_UpdBlk.blk _ _ _ ?r => replace r with (witharea c (cf_areas c) (withflags x7 (Z.lor (Z.lor (Z.lor (Z.lor (Z.lor 0 (sel (fa_flags a) AREA_UNCONFIRMED)) (sel (fa_flags a) AREA_MANDATORY)) (sel (fa_flags a) AREA_DEFREADONLY)) (sel (fa_flags a) AREA_IGNOREDUPES)) (sel (fa_flags a) AREA_IGNORESEENBY)))) end.
    { apply flag_blk; try kwok; reflexivity. }
    rewrite area_bits by exact H3. unfold witharea, doneA, withflags. subst x7 x6 x5 x4 x3 x2 x1. cbn [addban addtoss fa_changed fa_aka fa_flags fa_type fa_tag fa_desc fa_mb fa_path fa_group fa_toss fa_import fa_banned fa_keepnum fa_keepdays app].
    rewrite H7. reflexivity.
  Qed.
End Area.
