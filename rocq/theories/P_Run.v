(** Lemmas about whole toss runs. *)
From Coq Require Import Permutation.
From Verif Require Import Base M_Node4D S_Node4D M_Pat M_Str S_Str P_Str M_Mem M_Cfg M_Pkt M_Fs P_Fs M_Expr M_Filter M_Out S_Out P_Out M_Toss S_Toss P_Toss P_Arch.

(** steps that make no file with the name of a new packet *)
Definition mild (o : fop) : Prop := match o with Put n _ => IsNewPkt n = false | Ren _ b => IsNewPkt b = false | _ => True end.
Definition nonew (dir : list Z) (fs : fsys) : Prop := forall n, cstring n -> ~ In PATHCHAR n -> IsNewPkt n = true -> fget fs (slashed dir ++ n) = None.
Lemma last_not_new f c : last f 0 = c -> f <> [] -> c <> 116 -> c <> 84 -> IsNewPkt f = false.
Proof.
  intros Hl Hn H1 H2. destruct (IsNewPkt f) eqn:E; auto. exfalso. apply newpkt_rev in E as (a & b & c' & d & r & Er & Ha & _).
  apply (f_equal (@rev Z)) in Er. rewrite rev_involutive in Er. subst f. cbn [rev] in Hl. rewrite last_last in Hl. lia.
Qed.
Lemma bad_not_new f f' : bad_name f f' -> IsNewPkt f' = false.
Proof.
  intros (k & Hk & ->). destruct (Z.eqb_spec k 0).
  - eapply (last_not_new _ 100); [rewrite app_nil_r; replace (f ++ lit ".bad") with ((f ++ lit ".ba") ++ [100]) by (rewrite <- app_assoc; reflexivity); apply last_last| |lia|lia].
    intros E. apply app_eq_nil in E as [_ E]. discriminate.
  - pose proof (dec_digits k Hk) as D. pose proof (dec_nonempty k Hk) as Hn.
    destruct (exists_last Hn) as (s & x & Ex). rewrite Ex in *. apply Forall_app in D as [_ D]. inversion_clear D as [|? ? Dx _].
    eapply (last_not_new _ x); [rewrite !app_assoc; apply last_last| | |].
    + intros E. rewrite !app_assoc in E. apply app_eq_nil in E as [_ E]. discriminate.
    + unfold digit, isdigit in Dx. lia.
    + unfold digit, isdigit in Dx. lia.
Qed.

Section Run.
  Context (exec : list Z -> fsys -> fsys * Z) (env : oenv) (sort : list (list Z * Z) -> list (list Z * Z)).
  Context {St : Type} (readpkt : St -> list Z -> pktres St) (side : St -> list Z -> list fop).
  Context (inbound tempdir : list Z) (unpack : fsys -> list Z -> option (list Z)) (noread : list Z -> bool).
  Context (Htd : dir_ok tempdir) (Hsort : forall l, Permutation (sort l) l) (Hin : cstring inbound) (Hlen : (length inbound <= 75)%nat).
  Context (Hside : forall st c, Forall mild (side st c)).
  Notation run := (run exec).
  Definition inb (p : list Z) : Prop := indir inbound p.
  Lemma bad_mild fs file n o d : file = slashed d ++ n -> length n = 12%nat -> cstring n -> ~ In PATHCHAR n -> badops inbound fs file = Some o -> Forall mild o.
  Proof.
    intros -> Hl Hn Hs H. destruct (badops_spec (fun _ fs => (fs, 0)) (fun _ _ _ => False) inbound Hin Hlen (fun _ _ _ _ => eq_refl) ltac:(tauto) [] n Hl fs (slashed d ++ n) n o) as (dest & -> & _ & H'); auto;
      [exists (slashed d); split; [apply slashed_dir|reflexivity]|].
    constructor; [|constructor]. cbn. eapply bad_not_new; eauto.
  Qed.
  Lemma tosspkt_mild st fs d n st' o ok : length n = 12%nat -> cstring n -> ~ In PATHCHAR n ->
    tosspkt exec readpkt side inbound noread st fs (slashed d ++ n) = Some (st', o, ok) -> Forall mild o.
  Proof.
    intros Hl Hn Hs. unfold tosspkt. destruct (if noread _ then _ else _) as [x|]; [|intros E; assert (o = []) by congruence; subst o; constructor].
    destruct (readpkt st x) as [s1|r s1|s1| |]; try discriminate.
    - intros E. assert (o = side st x) by congruence. subst o. auto.
    - destruct (badops _ _ _) as [o1|] eqn:Eb; [|discriminate]. cbn [obind]. intros E. assert (o = side st x ++ o1) by congruence. subst o. apply Forall_app. split; auto. eapply bad_mild; eauto.
    - intros E. assert (o = side st x) by congruence. subst o. auto.
  Qed.
  Lemma inb_short n : length n = 12%nat -> cstring n -> ~ In PATHCHAR n -> firstn 99 (slashed inbound ++ n) = slashed inbound ++ n /\ inb (slashed inbound ++ n).
  Proof. intros H1 H2 H3. pose proof (slashed_length inbound). rewrite firstn_all2 by (rewrite app_length; lia). split; auto. exists n. auto. Qed.
  Lemma inb_dir : dir_ok inbound.
  Proof. split; auto. lia. Qed.
  Lemma tosspkts_mild l : twelve l -> forall st fs del st' o del' ok, Forall inb del ->
    tosspkts exec readpkt side inbound noread l st fs del = Some (st', o, del', ok) -> Forall mild o /\ Forall inb del'.
  Proof.
    intros F. induction F as [|[n z] l (F1 & F2 & F3) F IH]; intros st fs del st' o del' ok Hd; cbn [tosspkts].
    - intros E. assert (o = []) by congruence. assert (del' = del) by congruence. subst o del'. auto.
    - cbn [fst] in *. rewrite (path200_short inbound n (inb_dir)) by (auto; lia). cbn [obind].
      destruct (tosspkt _ _ _ _ _ st fs _) as [[[st1 o1] ok1]|] eqn:E1; [|discriminate]. cbn [obind].
      eapply tosspkt_mild in E1; eauto. destruct ok1.
      + destruct (tosspkts _ _ _ _ _ l _ _ _) as [[[[st2 o2] del2] ok2]|] eqn:E2; [|discriminate]. cbn [obind]. intros E. assert (o = o1 ++ o2) by congruence. assert (del' = del2) by congruence. subst o del'.
        apply IH in E2 as [I1 I2]; [split; [apply Forall_app; auto|auto]|]. apply Forall_app. split; auto. constructor; [|constructor]. destruct (inb_short n F1 F2 F3) as [-> H]. exact H.
      + intros E. assert (o = o1) by congruence. assert (del' = del) by congruence. subst o del'. auto.
  Qed.
  Lemma tosstemp_mild l : twelve l -> forall st fs del st' o ok,
    tosstemp exec readpkt side inbound tempdir noread l st fs del = Some (st', o, ok) -> Forall mild o.
  Proof.
    intros F. induction F as [|[n z] l (F1 & F2 & F3) F IH]; intros st fs del st' o ok; cbn [tosstemp].
    - intros E. assert (o = []) by congruence. subst o. auto.
    - cbn [fst] in *. rewrite path200_short by (auto; lia). cbn [obind]. destruct (existsb _ del); [eauto|].
      destruct (tosspkt _ _ _ _ _ st fs _) as [[[st1 o1] ok1]|] eqn:E1; [|discriminate]. cbn [obind].
      eapply tosspkt_mild in E1; eauto. destruct ok1.
      + destruct (tosstemp _ _ _ _ _ _ l _ _ _) as [[[st2 o2] ok2]|] eqn:E2; [|discriminate]. cbn [obind]. intros E. assert (o = o1 ++ [Del (slashed tempdir ++ n)] ++ o2) by congruence. subst o.
        apply Forall_app. split; auto. constructor; [cbn; auto|eauto].
      + intros E. assert (o = o1) by congruence. subst o. auto.
  Qed.
  Lemma bundle_mild st fs n size del st' o ok : length n = 12%nat -> cstring n -> ~ In PATHCHAR n ->
    TossBundle exec sort readpkt side inbound tempdir unpack noread st fs (slashed inbound ++ n) size del = Some (st', o, ok) -> Forall mild o.
  Proof.
    intros Hl Hn Hs. unfold TossBundle. destruct (size =? 0).
    - intros E. assert (o = [Del (slashed inbound ++ n)]) by congruence. subst o. constructor; [cbn; auto|constructor].
    - destruct (unpack fs _) as [cmd|].
      + destruct (_ =? -1); [intros E; assert (o = [Exec cmd]) by congruence; subst o; constructor; [cbn; auto|constructor]|].
        destruct (if _ =? 0 then _ else _) as [o1|] eqn:E1; [|discriminate]. cbn [obind].
        assert (M1 : Forall mild o1) by (destruct (_ =? 0); [apply some_eq in E1; subst o1; constructor|eapply bad_mild; eauto]).
        destruct (tosstemp _ _ _ _ _ _ _ _ _ _) as [[[st2 o2] ok2]|] eqn:E2; [|discriminate]. cbn [obind]. intros E. assert (o = Exec cmd :: o1 ++ o2) by (cbn [app] in E; congruence). subst o.
        constructor; [cbn; auto|]. apply Forall_app. split; auto. eapply tosstemp_mild; [|exact E2]. apply sort_Forall; auto. apply readdir_twelve, IsPkt_12.
      + destruct (badops _ _ _) as [o1|] eqn:Eb; [|discriminate]. cbn [obind]. intros E. assert (o = o1) by congruence. subst o. eapply bad_mild; eauto.
  Qed.
  Lemma tossarcs_mild l : twelve l -> forall st fs del st' o del' ok, Forall inb del ->
    tossarcs exec sort readpkt side inbound tempdir unpack noread l st fs del = Some (st', o, del', ok) -> Forall mild o /\ Forall inb del'.
  Proof.
    intros F. induction F as [|[n z] l (F1 & F2 & F3) F IH]; intros st fs del st' o del' ok Hd; cbn [tossarcs].
    - intros E. assert (o = []) by congruence. assert (del' = del) by congruence. subst o del'. auto.
    - cbn [fst] in *. rewrite (path200_short inbound n (inb_dir)) by (auto; lia). cbn [obind].
      destruct (TossBundle _ _ _ _ _ _ _ _ st fs _ _ _) as [[[st1 o1] ok1]|] eqn:E1; [|discriminate]. cbn [obind].
      eapply bundle_mild in E1; eauto. destruct ok1.
      + destruct (tossarcs _ _ _ _ _ _ _ _ l _ _ _) as [[[[st2 o2] del2] ok2]|] eqn:E2; [|discriminate]. cbn [obind]. intros E. assert (o = o1 ++ o2) by congruence. assert (del' = del2) by congruence. subst o del'.
        apply IH in E2 as [I1 I2]; [split; [apply Forall_app; auto|auto]|]. apply Forall_app. split; auto. constructor; [|constructor]. destruct (inb_short n F1 F2 F3) as [-> H]. exact H.
      + intros E. assert (o = o1) by congruence. assert (del' = del) by congruence. subst o del'. auto.
  Qed.

  Context (Hexn : forall cmd fs f, IsNewPkt f = true -> fget fs f = None -> fget (fst (exec cmd fs)) f = None).
  Context (Hexd : forall cmd fs, NoDup (map fst fs) -> NoDup (map fst (fst (exec cmd fs)))).
  Lemma run_nodup o fs : NoDup (map fst fs) -> NoDup (map fst (run fs o)).
  Proof.
    revert fs. induction o as [|x o IH]; intros fs H; [auto|]. cbn [M_Out.run fold_left]. apply IH. destruct x; cbn [apply]; [apply put_nodup|apply del_nodup|apply ren_nodup|apply Hexd]; auto.
  Qed.
  Lemma run_nonew dir o fs : Forall mild o -> nonew dir fs -> nonew dir (run fs o).
  Proof.
    intros F. revert fs. induction F as [|x o H F IH]; intros fs N; [auto|]. cbn [M_Out.run fold_left]. apply IH. intros n H1 H2 H3. pose proof (N n H1 H2 H3) as Hg.
    assert (K : IsNewPkt (slashed dir ++ n) = true) by (apply IsNewPkt_path; auto).
    destruct x as [k c|k|a b|cmd]; cbn [apply].
    - rewrite fget_put_other; auto. intros ->. cbn in H. congruence.
    - destruct (list_eq_dec Z.eq_dec k (slashed dir ++ n)) as [->|Hn]; [apply fget_del_same|rewrite fget_del_other; auto].
    - destruct (list_eq_dec Z.eq_dec a (slashed dir ++ n)) as [->|Hn].
      + unfold tryrename, osRename. rewrite Hg. exact Hg.
      + rewrite tryrename_other; auto. intros <-. cbn in H. congruence.
    - apply Hexn; auto.
  Qed.
End Run.

(** ** Closing the new packets *)
Section Close.
  Context (exec : list Z -> fsys -> fsys * Z) (env : oenv) (Hpc : cstring (oe_packetcreate env)) (Hpcl : (length (oe_packetcreate env) <= 80)%nat).
  Notation run := (run exec).
  Notation pc := (slashed (oe_packetcreate env)).
  Definition first_name (p : opkt) : list Z := hex 8 (op_hex p) ++ lit ".newpkt".
  Lemma finalname_new num type d name : 0 <= type <= 4 -> valid4d d -> finalname num type d = Some name ->
    goodname name /\ (length name <= 48)%nat /\ firstn 8 name = hex 8 num /\ (16 <= length name)%nat.
  Proof.
    intros Ht Hd E. pose proof (finalname_cstring _ _ _ _ Ht Hd E) as H1. destruct (finalname_chars _ _ _ _ Ht Hd E) as [H2 H3].
    rewrite finalname_eq in E by auto. apply some_eq in E.
    assert (L : (16 <= length name)%nat) by (subst name; rewrite !app_length, hex_length; change (length (lit ".newpkt")) with 7%nat; change (length (lit "_")) with 1%nat; lia).
    assert (IsNewPkt name = true).
    { subst name. rewrite !app_assoc. unfold IsNewPkt. rewrite hassuffix_app by (cbn; lia). reflexivity. }
    split; [repeat split; auto; lia|]. split; auto. split; auto. subst name. rewrite firstn_app, hex_length, Nat.sub_diag, firstn_O, app_nil_r. apply firstn_all2. rewrite hex_length. lia.
  Qed.
  Lemma first_good p : goodname (first_name p) /\ firstn 8 (first_name p) = hex 8 (op_hex p) /\ length (first_name p) = 15%nat.
  Proof.
    destruct (newname_fine (op_hex p)) as [H1 H2]. assert (L : length (first_name p) = 15%nat) by (unfold first_name; rewrite app_length, hex_length; reflexivity).
    assert (IsNewPkt (first_name p) = true) by (unfold first_name, IsNewPkt; rewrite hassuffix_app by (cbn; lia); reflexivity).
    split; [repeat split; auto; lia|]. split; auto.
  Qed.
  Definition name_of (p : opkt) (n : list Z) : Prop := finalname (op_hex p) (op_type p) (op_dest p) = Some n.
  Lemma close_step p r o : opkt_fine p -> op_hex p <> 0 -> closeops env (p :: r) = Some o ->
    exists n o', name_of p n /\ closeops env r = Some o' /\ o = Put (pc ++ first_name p) (op_data p) :: Ren (pc ++ first_name p) (pc ++ n) :: o'.
  Proof.
    intros (F1 & F2 & F3) Hz. assert (Hpc' : dir_ok (oe_packetcreate env)) by (split; auto; lia). cbn [closeops]. rewrite path100_new by auto. cbn [obind]. fold (first_name p).
    destruct (first_good p) as ((G1 & G2 & _ & G3) & _ & G4).
    rewrite path200_short by (auto; lia). cbn [obind].
    destruct (finalname (op_hex p) (op_type p) (op_dest p)) as [n|] eqn:E; [|discriminate]. cbn [obind]. destruct (finalname_new _ _ _ _ F2 F3 E) as ((N1 & N2 & _ & N3) & _).
    rewrite path200_short by (auto; lia). cbn [obind]. destruct (closeops env r) as [o'|]; [|discriminate]. cbn [obind]. destruct (Z.eqb_spec (op_hex p) 0); [contradiction|].
    intros H. apply some_eq in H. exists n, o'. split; auto.
  Qed.
  Lemma hex_apart p q a b : is_u32 (op_hex p) -> is_u32 (op_hex q) -> op_hex p <> op_hex q -> firstn 8 a = hex 8 (op_hex p) -> firstn 8 b = hex 8 (op_hex q) -> a <> b.
  Proof. intros H1 H2 H3 H4 H5 ->. apply H3. rewrite H4 in H5. apply hex_inj in H5; auto; unfold is_u32 in *; change (16 ^ Z.of_nat 8) with 4294967296; lia. Qed.
  (** files of other packets and other files stay *)
  Lemma close_other l : forall o fs f, Forall opkt_fine l -> Forall (fun p => op_hex p <> 0) l -> closeops env l = Some o ->
    (forall p n, In p l -> name_of p n -> f <> pc ++ first_name p /\ f <> pc ++ n) -> fget (run fs o) f = fget fs f.
  Proof.
    induction l as [|p l IH]; intros o fs f F Z0 E H; [cbn [closeops] in E; apply some_eq in E; subst o; reflexivity|].
    pose proof (Forall_inv F) as Fp. pose proof (Forall_inv_tail F) as F'. pose proof (Forall_inv Z0) as Zp. pose proof (Forall_inv_tail Z0) as Z'. cbv beta in Zp.
    destruct (close_step p l o Fp Zp E) as (n & o' & Hn & Eo & ->). destruct (H p n (or_introl eq_refl) Hn) as [A B]. cbn [M_Out.run fold_left apply].
    match goal with |- fget (fold_left (apply exec) o' ?s) f = _ => change (fold_left (apply exec) o' s) with (run s o') end.
    rewrite (IH o' _ f F' Z' Eo) by (intros q k Hq Hk; apply (H q k); [right|]; auto). rewrite tryrename_other, fget_put_other; auto.
  Qed.
  Lemma close_all l : forall o fs, Forall opkt_fine l -> Forall (fun p => op_hex p <> 0) l -> NoDup (map op_hex l) -> closeops env l = Some o ->
    forall p n, In p l -> name_of p n -> fget (run fs o) (pc ++ n) = Some (op_data p) /\ fget (run fs o) (pc ++ first_name p) = None.
  Proof.
    induction l as [|p l IH]; intros o fs F Z0 Nd E q k Hq Hk; [destruct Hq|].
    pose proof (Forall_inv F) as Fp. pose proof (Forall_inv_tail F) as F'. pose proof (Forall_inv Z0) as Zp. pose proof (Forall_inv_tail Z0) as Z'. cbv beta in Zp.
    destruct (close_step p l o Fp Zp E) as (n & o' & Hn & Eo & ->). cbn [map] in Nd. inversion_clear Nd as [|? ? N1 N2]. cbn [M_Out.run fold_left apply].
    match goal with |- context [fold_left (apply exec) o' ?s] => change (fold_left (apply exec) o' s) with (run s o'); set (s1 := s) end.
    destruct Hq as [->|Hq]; [|apply IH; auto].
    assert (n = k) by (unfold name_of in *; congruence). subst k. destruct Fp as (P1 & P2 & P3).
    destruct (finalname_new _ _ _ _ P2 P3 Hn) as ((G1 & G2 & _ & G3) & _ & G4 & G5). destruct (first_good q) as ((Q1 & Q2 & _ & Q3) & Q4 & Q5).
    assert (Hoth : forall a, firstn 8 a = hex 8 (op_hex q) -> ~ In PATHCHAR a -> forall p' n', In p' l -> name_of p' n' -> pc ++ a <> pc ++ first_name p' /\ pc ++ a <> pc ++ n').
    { intros a Ha1 Ha2 p' n' Hin' Hn'. rewrite Forall_forall in F'. destruct (F' p' Hin') as (R1 & R2 & R3). destruct (finalname_new _ _ _ _ R2 R3 Hn') as (_ & _ & R4 & _). destruct (first_good p') as (_ & R5 & _).
      assert (Hd : op_hex q <> op_hex p') by (intros Eh; apply N1; rewrite Eh; apply in_map; auto).
      split; intros Ee; apply app_inv_head in Ee; [apply (hex_apart q p' a (first_name p') P1 R1 Hd Ha1 R5 Ee)|apply (hex_apart q p' a n' P1 R1 Hd Ha1 R4 Ee)]. }
    assert (Hne : first_name q <> n) by (intros Ee; apply (f_equal (@List.length Z)) in Ee; lia).
    rewrite (close_other l o' s1 (pc ++ n) F' Z' Eo) by (apply Hoth; auto). rewrite (close_other l o' s1 (pc ++ first_name q) F' Z' Eo) by (apply Hoth; auto).
    unfold s1. split; [apply tryrename_same, fget_put_same|].
    unfold tryrename, osRename. rewrite fget_put_same. destruct (streq (pc ++ first_name q) (pc ++ n)) eqn:Es; [apply streq_eq in Es; apply app_inv_head in Es; congruence|].
    rewrite fget_put_other by (intros Ee; apply app_inv_head in Ee; congruence). apply fget_del_same.
  Qed.
  Lemma close_apart l o fs : Forall opkt_fine l -> Forall (fun p => op_hex p <> 0) l -> NoDup (map op_hex l) -> closeops env l = Some o -> nonew (oe_packetcreate env) fs ->
    numbers_apart env (run fs o).
  Proof.
    intros F Z0 Nd E N.
    assert (Hmem : forall n, fget (run fs o) (pc ++ n) <> None -> cstring n -> ~ In PATHCHAR n -> IsNewPkt n = true -> exists p, In p l /\ name_of p n).
    { intros n Hg H1 H2 H3.
      assert (Dec : (exists p, In p l /\ name_of p n) \/ (exists p, In p l /\ n = first_name p) \/ forall p k, In p l -> name_of p k -> n <> first_name p /\ n <> k).
      { clear - l. induction l as [|p l IH]; [right; right; intros p k []|]. destruct IH as [(q & A & B)|[(q & A & B)|IH]]; [left; exists q; split; [right|]; auto|right; left; exists q; split; [right|]; auto|].
        destruct (list_eq_dec Z.eq_dec n (first_name p)) as [A|A]; [right; left; exists p; split; [left|]; auto|].
        destruct (finalname (op_hex p) (op_type p) (op_dest p)) as [k|] eqn:Ek.
        - destruct (list_eq_dec Z.eq_dec n k) as [->|B]; [left; exists p; split; [left|]; auto|]. right. right. intros q k' [->|Hq] Hk; [unfold name_of in Hk; split; congruence|eauto].
        - right. right. intros q k' [->|Hq] Hk; [unfold name_of in Hk; congruence|eauto]. }
      destruct Dec as [Dec|[(p & Hp & ->)|Dec]]; auto; exfalso; apply Hg.
      - rewrite Forall_forall in F. destruct (F p Hp) as (P1 & P2 & P3). assert (Hn : exists k, name_of p k) by (unfold name_of; rewrite finalname_eq by auto; eauto). destruct Hn as (k & Hk).
        eapply (close_all l o fs); eauto. apply Forall_forall; auto.
      - rewrite (close_other l o fs); auto. intros p k Hp Hk. destruct (Dec p k Hp Hk) as [D1 D2]. split; intros Ee; apply app_inv_head in Ee; auto. }
    intros n Hg H1 H2 H3. destruct (Hmem n Hg H1 H2 H3) as (p & Hp & Hn). rewrite Forall_forall in F. destruct (F p Hp) as (P1 & P2 & P3). destruct (finalname_new _ _ _ _ P2 P3 Hn) as ((_ & _ & _ & G) & _ & G4 & _).
    split; auto. intros n' Hg' H1' H2' H3' E8. destruct (Hmem n' Hg' H1' H2' H3') as (q & Hq & Hn'). destruct (F q Hq) as (Q1 & Q2 & Q3). destruct (finalname_new _ _ _ _ Q2 Q3 Hn') as (_ & _ & R4 & _).
    assert (Hh : op_hex p = op_hex q) by (rewrite G4, R4 in E8; apply hex_inj in E8; auto; unfold is_u32 in *; change (16 ^ Z.of_nat 8) with 4294967296; lia).
    assert (p = q).
    { clear - Nd Hp Hq Hh. induction l as [|a l IH]; [destruct Hp|]. cbn [map] in Nd. inversion_clear Nd as [|? ? N1 N2]. destruct Hp as [->|Hp], Hq as [->|Hq]; auto; exfalso; apply N1; [rewrite Hh|rewrite <- Hh]; apply in_map; auto. }
    subst q. unfold name_of in *. congruence.
  Qed.
End Close.

(** ** Leftover packets *)
Lemma dels_run exec o fs f : (forall x, In x o -> exists p, x = Del p) -> fget fs f = None \/ In (Del f) o -> fget (run exec fs o) f = None.
Proof.
  revert fs. induction o as [|x o IH]; intros fs D H; [destruct H as [H|[]]; exact H|]. cbn [run fold_left]. destruct (D x (or_introl eq_refl)) as (p & ->). apply IH; [intros y Hy; apply D; right; auto|]. cbn [apply].
  destruct (list_eq_dec Z.eq_dec p f) as [->|Hn]; [left; apply fget_del_same|]. destruct H as [H|[H|H]]; [left; rewrite fget_del_other; auto|congruence|right; auto].
Qed.
Lemma before_In env l o n z : dir_ok (oe_packetcreate env) -> beforeops env l = Some o -> In (n, z) l -> cstring n -> (length n <= 98)%nat -> In (Del (slashed (oe_packetcreate env) ++ n)) o.
Proof.
  intros Hd. revert o. induction l as [|[k y] l IH]; intros o E Hin Hn Hl; [destruct Hin|]. cbn [beforeops] in E.
  destruct (path200 _ k) as [p|] eqn:Ep; [|discriminate]. cbn [obind] in E. destruct (beforeops env l) as [o1|]; [|discriminate]. cbn [obind] in E. apply some_eq in E. subst o.
  destruct Hin as [H|H]; [|right; auto]. assert (k = n) by congruence. subst k. rewrite path200_short in Ep by auto. apply some_eq in Ep. subst p. left. reflexivity.
Qed.
Lemma fget_In fs f c : fget fs f = Some c -> In (f, c) fs.
Proof. induction fs as [|[k v] fs IH]; [discriminate|]. cbn [fget]. destruct (streq f k) eqn:E; [apply streq_eq in E; intros H; left; congruence|right; auto]. Qed.
Lemma before_nonew exec env fs o : dir_ok (oe_packetcreate env) ->
  (forall n, fget fs (slashed (oe_packetcreate env) ++ n) <> None -> IsNewPkt n = true -> (length n <= 98)%nat) ->
  beforeops env (osReadDir fs (oe_packetcreate env) IsNewPkt) = Some o -> nonew (oe_packetcreate env) (run exec fs o).
Proof.
  intros Hd Hs E n H1 H2 H3. destruct (before_within _ _ _ Hd (readdir_fine fs (oe_packetcreate env) IsNewPkt) E) as [_ D]. apply dels_run; auto.
  destruct (fget fs (slashed (oe_packetcreate env) ++ n)) as [c|] eqn:Eg; [right|left; reflexivity].
  assert (length n <= 98)%nat by (apply Hs; auto; congruence). apply fget_In in Eg. apply (In_readdir fs (oe_packetcreate env) IsNewPkt) in Eg; auto. rewrite firstn_all2 in Eg by lia.
  eapply before_In; eauto.
Qed.
