(** Lemmas about importing messages into JAM areas and reading them back. *)
From Verif Require Import Base M_Node4D S_Node4D P_Node4D M_Pat M_Str P_Str M_Cfg M_Mem S_Mem P_Mem M_Pkt S_Pkt P_Pkt M_Net S_Net P_Net M_Echo M_Filter M_Msg S_Msg P_Msg P_MsgText.
From Verif Require Import M_Jam S_Jam P_Jam M_Link M_JamMb S_JamMb P_JamMb S_JamBack P_JamBack.

(** ** One line *)
Lemma jamline_whole r rest : ~ In 13 r -> ~ In 10 r -> jamline (r ++ 13 :: rest) = (r ++ [13], rest).
Proof.
  induction r as [|c r IH]; intros H13 H10; [reflexivity|]. cbn [app jamline]. destruct (Z.eqb_spec c 13); [subst; exfalso; apply H13; left; auto|].
  rewrite IH by (intros H; first [apply H13; right; exact H|apply H10; right; exact H]). destruct (Z.eqb_spec c 10); [subst; exfalso; apply H10; left; auto|]. reflexivity.
Qed.
Lemma cstring_skipn k l : cstring l -> cstring (skipn k l).
Proof. unfold cstring. revert l. induction k as [|k IH]; intros l H; [exact H|]. destruct l; [exact H|]. cbn. apply IH. inversion H; auto. Qed.
Lemma cstring_firstn k l : cstring l -> cstring (firstn k l).
Proof. unfold cstring. revert l. induction k as [|k IH]; intros l H; [constructor|]. destruct l; [exact H|]. cbn. inversion H; subst. constructor; auto. Qed.
Lemma cstring_strip l : cstring l -> cstring (stripleadtrail l).
Proof.
  intros H. unfold stripleadtrail. assert (H1 : cstring (striplead l)). { unfold cstring in *. induction H as [|c l Hc Hl IH]; [constructor|]. cbn [striplead]. destruct (c =? 32); [exact IH|constructor; auto]. }
  revert H1. generalize (striplead l). intros s. unfold cstring. induction 1 as [|c s Hc Hs IH]; [constructor|]. cbn [striptrail]. destruct (striptrail s); [destruct (isstrip c); repeat constructor; lia|]. constructor; auto.
Qed.
Lemma skipn_snoc (k : nat) (r : list Z) x : (k <= length r)%nat -> skipn k (r ++ [x]) = skipn k r ++ [x].
Proof. intros H. rewrite skipn_app. replace (k - length r)%nat with O by lia. reflexivity. Qed.
Lemma kfield_whole k r : cstring r -> (k <= length r)%nat -> kfield k (r ++ [13]) = Some (body k (r ++ [13])) /\ cstring (body k (r ++ [13])).
Proof.
  intros Hr Hk. unfold kfield, body. rewrite app_length. cbn [length]. rewrite skipn_snoc, removelast_last by auto.
  assert (Hs : cstring (skipn k r)) by (apply cstring_skipn; auto).
  assert (L : length (skipn k r) = (length r - k)%nat) by apply skipn_length.
  replace (Nat.min 100 (length r + 1 - k)) with (S (Nat.min 99 (length r - k))) by lia.
  assert (E : firstn (Nat.min 99 (length r - k)) (skipn k r ++ [13]) = firstn 99 (skipn k r)).
  { rewrite firstn_app. replace (Nat.min 99 (length r - k) - length (skipn k r))%nat with O by lia. rewrite firstn_O, app_nil_r.
    destruct (Nat.le_gt_cases (length r - k) 99); [rewrite !firstn_all2 by lia; reflexivity|]. replace (Nat.min 99 (length r - k)) with 99%nat by lia. reflexivity. }
  rewrite E. assert (Hf : cstring (firstn 99 (skipn k r))) by (apply cstring_firstn; auto). rewrite cstr_cstring by auto. split; [reflexivity|]. apply cstring_strip; auto.
Qed.
(** the field made of a line *)
Definition sub_of (l : list Z) : jsub :=
  if prefixb (1 :: lit "PID:") l then subfield JAMSFLD_PID (body 5 l)
  else if prefixb (1 :: lit "MSGID:") l then subfield JAMSFLD_MSGID (body 7 l)
  else if prefixb (1 :: lit "REPLY:") l then subfield JAMSFLD_REPLYID (body 7 l)
  else subfield JAMSFLD_FTSKLUDGE (body 1 l).
Definition subs_of (l : list Z) : list jsub := if isctl l && negb (isroute l) then [sub_of l] else [].
Definition text_of (l : list Z) : list Z := if isctl l then [] else l.
Lemma prefix_len p r : prefixb p (r ++ [13]) = true -> ~ In 13 p -> (length p <= length r)%nat.
Proof.
  intros H Hp. apply prefixb_spec in H as (x & E). destruct (Nat.le_gt_cases (length p) (length r)); auto. exfalso.
  assert (El : length (p ++ x) = S (length r)) by (rewrite <- E, app_length; cbn; lia). rewrite app_length in El. assert (x = []) by (destruct x; auto; cbn in El; lia). subst x. rewrite app_nil_r in E. apply Hp. rewrite <- E. apply in_or_app. right. left. auto.
Qed.
Lemma prefix_two a b l : prefixb a l = true -> (exists k x y, nth_error a k = Some x /\ nth_error b k = Some y /\ x <> y) -> prefixb b l = false.
Proof.
  intros H (k & x & y & Ha & Hb & N). apply prefixb_spec in H as (r & ->). apply prefixb_false. intros (s & E).
  assert (E1 : nth_error (a ++ r) k = Some x) by (rewrite nth_error_app1; auto; apply nth_error_Some; congruence).
  rewrite E in E1. rewrite nth_error_app1 in E1 by (apply nth_error_Some; congruence). congruence.
Qed.
Lemma jamline1_whole a l : wholeline l -> ~ starts_with (1 :: lit "FLAGS:") l ->
  jamline1 a l = Some (ACC (ac_attr a) (ac_subs a ++ subs_of l) (ac_text a ++ text_of l)) /\ Forall (fun f => cstring (sf_data f)) (subs_of l) /\ lines_of (subs_of l) = map norm (controls [l]).
Proof.
  intros (r & -> & Hr & H13 & H10) Hfl. apply prefixb_false in Hfl. set (l := r ++ [13]) in *.
  assert (K : forall p k, prefixb p l = true -> ~ In 13 p -> length p = k -> (k <= length r)%nat) by (intros p k H1 H2 <-; apply prefix_len; auto).
  assert (Hk : forall k, (k <= length r)%nat -> kfield k l = Some (body k l) /\ cstring (body k l)) by (intros k H; apply kfield_whole; auto).
  assert (Hn : exists c x, l = c :: x) by (unfold l; destruct r; cbn [app]; eexists _, _; reflexivity). destruct Hn as (c0 & x0 & El).
  assert (Hc1 : isctl l = (c0 =? 1)) by (rewrite El; reflexivity).
  unfold jamline1, controls. rewrite El. rewrite <- El. rewrite Hfl. cbn [filter].
  assert (Hctl : forall p, prefixb (1 :: p) l = true -> isctl l = true) by (intros p H; apply prefixb_spec in H as (y & ->); reflexivity).
  assert (Fin : forall lo k, kfield k l = Some (body k l) -> cstring (body k l) -> isctl l = true -> isroute l = false -> sub_of l = subfield lo (body k l) -> line_of (subfield lo (body k l)) = [norm l] ->
    option_map (addsub a lo) (kfield k l) = Some (ACC (ac_attr a) (ac_subs a ++ subs_of l) (ac_text a ++ text_of l)) /\ Forall (fun f => cstring (sf_data f)) (subs_of l) /\ lines_of (subs_of l) = map norm (if isctl l && negb (isroute l) then [l] else [])).
  { intros lo k E1 E2 E3 E4 E5 E6. unfold subs_of, text_of. rewrite E3, E4, E5. cbn [andb negb]. rewrite E1. cbn [option_map]. unfold addsub. rewrite app_nil_r. split; [reflexivity|]. split; [repeat constructor; exact E2|]. unfold lines_of. cbn [flat_map]. rewrite E6. reflexivity. }
  assert (Hroute : forall p, prefixb p l = true -> In p [1 :: lit "PID:"; 1 :: lit "MSGID:"; 1 :: lit "REPLY:"] -> isroute l = false).
  { intros p H Hin. unfold isroute. rewrite !(prefix_two p _ l H); [reflexivity|..]; cbn [In] in Hin; destruct Hin as [<-|[<-|[<-|[]]]]; exists 1%nat; eexists _, _; (split; [reflexivity|]); (split; [reflexivity|]); discriminate. }
  unfold JAMSFLD_PID, JAMSFLD_MSGID, JAMSFLD_REPLYID, JAMSFLD_FTSKLUDGE in *.
  destruct (prefixb (1 :: lit "PID:") l) eqn:E1.
  { destruct (Hk 5%nat) as [A1 A2]; [apply (K _ _ E1); auto; cbn; intuition lia|]. apply Fin; auto; [eapply Hctl; eauto|eapply Hroute; [exact E1|left; auto]|unfold sub_of; rewrite E1; reflexivity|unfold norm; rewrite E1; reflexivity]. }
  destruct (prefixb (1 :: lit "MSGID:") l) eqn:E2.
  { destruct (Hk 7%nat) as [A1 A2]; [apply (K _ _ E2); auto; cbn; intuition lia|]. apply Fin; auto; [eapply Hctl; eauto|eapply Hroute; [exact E2|right; left; auto]|unfold sub_of; rewrite E1, E2; reflexivity|unfold norm; rewrite E1, E2; reflexivity]. }
  destruct (prefixb (1 :: lit "REPLY:") l) eqn:E3.
  { destruct (Hk 7%nat) as [A1 A2]; [apply (K _ _ E3); auto; cbn; intuition lia|]. apply Fin; auto; [eapply Hctl; eauto|eapply Hroute; [exact E3|right; right; left; auto]|unfold sub_of; rewrite E1, E2, E3; reflexivity|unfold norm; rewrite E1, E2, E3; reflexivity]. }
  assert (Er : isroute l = prefixb (1 :: lit "INTL") l || prefixb (1 :: lit "TOPT") l || prefixb (1 :: lit "FMPT") l) by (unfold isroute; rewrite <- !orb_assoc; f_equal; apply orb_comm).
  rewrite <- Er. destruct (isroute l) eqn:Ert.
  { assert (Hi : isctl l = true). { unfold isroute in Ert. apply orb_true_iff in Ert as [Ert|Ert]; [apply orb_true_iff in Ert as [Ert|Ert]|]; eapply Hctl; exact Ert. }
    unfold subs_of, text_of. rewrite Hi, Ert. cbn [andb negb map]. rewrite !app_nil_r. split; [destruct a; reflexivity|]. split; [constructor|reflexivity]. }
  destruct (Z.eqb_spec c0 1) as [->|N].
  { destruct (Hk 1%nat) as [A1 A2].
    { unfold l in El. destruct r as [|q r']; [cbn in El; discriminate El|cbn; lia]. }
    apply Fin; auto; [unfold sub_of; rewrite E1, E2, E3; reflexivity|unfold norm; rewrite E1, E2, E3; reflexivity]. }
  unfold subs_of, text_of. rewrite Hc1. cbn [andb map]. rewrite app_nil_r. split; [reflexivity|]. split; [constructor|reflexivity].
Qed.

(** ** All lines *)
Definition lineok (l : list Z) : Prop := wholeline l /\ ~ starts_with (1 :: lit "FLAGS:") l.
Definition after (a : jacc) (ls : list (list Z)) : jacc := ACC (ac_attr a) (ac_subs a ++ flat_map subs_of ls) (ac_text a ++ concat (textual ls)).
Lemma after_nil a : after a [] = a.
Proof. unfold after. cbn. rewrite !app_nil_r. destruct a; reflexivity. Qed.
Lemma after_app a x y : after (after a x) y = after a (x ++ y).
Proof. unfold after. cbn [ac_attr ac_subs ac_text]. unfold textual. rewrite flat_map_app, filter_app, concat_app, !app_assoc. reflexivity. Qed.
Lemma jamchunk_lines ls : Forall lineok ls -> forall fuel a, (length (concat ls) <= fuel)%nat -> jamchunk fuel (concat ls) a = Some (after a ls).
Proof.
  induction 1 as [|l ls [Hl Hf] F IH]; intros fuel a Hlen; [destruct fuel; cbn; rewrite after_nil; reflexivity|].
  pose proof Hl as (r & E & _ & H13 & H10). cbn [concat] in *. rewrite app_length in Hlen. assert (L : (1 <= length l)%nat) by (rewrite E, app_length; cbn; lia).
  destruct fuel as [|fuel]; [lia|].
  assert (Ec : exists c x, l ++ concat ls = c :: x) by (rewrite E; destruct r; cbn; eexists _, _; reflexivity). destruct Ec as (c & x & Ec).
  cbn [jamchunk]. rewrite Ec. rewrite <- Ec. rewrite E at 1. rewrite <- app_assoc. cbn [app]. rewrite (jamline_whole r (concat ls) H13 H10), <- E.
  destruct (jamline1_whole a l Hl Hf) as (E1 & _ & _). rewrite E1. cbn [obind]. rewrite IH by lia. f_equal.
  change (l :: ls) with ([l] ++ ls). rewrite <- after_app. f_equal. unfold after, textual, text_of. cbn [flat_map filter]. rewrite app_nil_r. destruct (isctl l); cbn [negb concat]; rewrite ?app_nil_r; reflexivity.
Qed.
Lemma jamchunks_lines css : forall a, Forall lineok (concat css) -> jamchunks (map (@concat Z) css) a = Some (after a (concat css)).
Proof.
  induction css as [|ls css IH]; intros a F; [cbn; rewrite after_nil; reflexivity|]. cbn [map jamchunks concat] in *. apply Forall_app in F as [F1 F2].
  rewrite jamchunk_lines by auto. cbn [obind]. rewrite IH by auto. rewrite after_app. reflexivity.
Qed.
Lemma subs_lines ls : Forall lineok ls -> lines_of (flat_map subs_of ls) = map norm (controls ls) /\ Forall (fun f => cstring (sf_data f)) (flat_map subs_of ls).
Proof.
  induction 1 as [|l ls [Hl Hf] F (IH1 & IH2)]; [split; [reflexivity|constructor]|]. destruct (jamline1_whole (ACC 0 [] []) l Hl Hf) as (_ & E2 & E3). cbn [flat_map]. split.
  - unfold lines_of in *. rewrite flat_map_app, IH1, E3. unfold controls. cbn [filter]. destruct (_ && _); reflexivity.
  - apply Forall_app; auto.
Qed.
Lemma subs_lo ls : Forall (fun f => In (sf_lo f) [4; 5; 7; 2000]) (flat_map subs_of ls).
Proof.
  induction ls as [|l ls IH]; [constructor|]. cbn [flat_map]. apply Forall_app. split; auto. unfold subs_of. destruct (_ && _); [|constructor]. constructor; [|constructor].
  unfold sub_of. destruct (prefixb (1 :: lit "PID:") l); [cbn; auto|]. destruct (prefixb (1 :: lit "MSGID:") l); [cbn; auto|]. destruct (prefixb (1 :: lit "REPLY:") l); cbn; auto.
Qed.

(** ** SEEN-BY and PATH *)
Lemma crlines_line r : ~ In 13 r -> forall cur rest, crlines (r ++ 13 :: rest) cur = (rev cur ++ r) :: crlines rest [].
Proof.
  induction r as [|c r IH]; intros H cur rest; cbn [app crlines]; [cbn; rewrite app_nil_r; reflexivity|]. destruct (Z.eqb_spec c 13); [subst; exfalso; apply H; left; auto|].
  rewrite IH by (intros Hx; apply H; right; auto). cbn [rev]. rewrite <- app_assoc. reflexivity.
Qed.
Lemma crlines_lines ls : Forall (fun l => ~ In 13 l) ls -> crlines (concat (map (fun l => l ++ [13]) ls)) [] = ls.
Proof. induction 1 as [|l ls H F IH]; [reflexivity|]. cbn [map concat]. rewrite <- app_assoc. cbn [app]. rewrite crlines_line, IH by auto. reflexivity. Qed.
Definition sblines (cfg : jcfg) (mm : memmsg) (gs : list (list node2d * list Z)) : Prop :=
  exists sb, (if flag (jc_flags cfg) CFG_IMPORTSEENBY then mmMakeSeenByBuf (SeenBy mm) else Some []) = Some sb /\
  map (fun l => subfield JAMSFLD_SEENBY2D (skipn 9 l)) (crlines sb []) = map (fun g => subfield JAMSFLD_SEENBY2D (skipn 9 (snd g))) gs /\
  Forall (fun g => sbline (fst g) (snd g) /\ (length (snd g) <= 77)%nat /\ pairs_ok (fst g)) gs /\
  forall x, x <> (0, 0) -> (In x (concat (map fst gs)) <-> Z.testbit (jc_flags cfg) 6 = true /\ In x (entries (SeenBy mm))).
Lemma sblines_ok cfg mm : pairs_ok (entries (SeenBy mm)) -> exists gs, sblines cfg mm gs.
Proof.
  intros Hsb. unfold sblines. rewrite (flag_bit _ 6 ltac:(lia) : flag _ CFG_IMPORTSEENBY = _). destruct (Z.testbit (jc_flags cfg) 6).
  - destruct (mmMakeSeenByBuf_spec (SeenBy mm) Hsb) as (text & gs & E & Et & Hg & Hcat). exists gs, text. split; auto.
    assert (Hg' : Forall (fun g => sbline (fst g) (snd g) /\ (length (snd g) <= 77)%nat /\ pairs_ok (fst g)) gs).
    { apply Forall_forall. intros g Hg'. rewrite Forall_forall in Hg. destruct (Hg _ Hg'). split; auto. split; auto.
      apply pairs_ok_in. intros x Hx. rewrite pairs_ok_in in Hsb. apply Hsb.
      assert (Hxl : In x (live (SeenBy mm))) by (rewrite <- Hcat; apply in_concat; exists (fst g); split; auto; apply in_map; auto).
      apply live_in in Hxl. tauto. }
    split; [|split; auto; intros x Hx; rewrite Hcat, live_in; tauto].
    rewrite Et. replace (map (fun g : list node2d * list Z => snd g ++ [13]) gs) with (map (fun l => l ++ [13]) (map snd gs)) by (rewrite map_map; reflexivity).
    rewrite crlines_lines, map_map; [reflexivity|]. apply Forall_map. eapply Forall_impl; [|exact Hg']. cbv beta. intros g (H1 & _ & H2). apply (sbline_shape (fst g)); auto.
  - exists [], []. split; auto. split; auto. split; [constructor|]. intros x Hx. cbn. split; [tauto|intros [? _]; discriminate].
Qed.
Lemma sbline_skip es line : sbline es line -> lit "SEEN-BY: " ++ skipn 9 line = line.
Proof. intros (ts & Ht & Hne & ->). destruct ts as [|t ts]; [inversion Ht; congruence|]. litc. reflexivity. Qed.

(** ** Attributes *)
Lemma jamfold_bits A l j : forall a, Z.testbit (fold_left (fun a x => if flag A (jf_fido x) then Z.lor a (jf_jam x) else a) l a) j = Z.testbit a j || existsb (fun x => flag A (jf_fido x) && Z.testbit (jf_jam x) j) l.
Proof. induction l as [|x l IH]; intros a; [cbn; rewrite orb_false_r; reflexivity|]. cbn [fold_left existsb]. rewrite IH. destruct (flag A (jf_fido x)); cbn [andb orb]; [|reflexivity]. rewrite Z.lor_spec, orb_assoc. reflexivity. Qed.
Lemma jamattr_bit mm j : Z.testbit (jamattr mm) j = existsb (fun x => flag (Attr mm) (jf_fido x) && Z.testbit (jf_jam x) j) jam_flagarray || (if isnet mm then Z.testbit MSG_TYPENET j else Z.testbit MSG_TYPEECHO j).
Proof. unfold jamattr. rewrite Z.lor_spec, jamfold_bits, Z.bits_0. cbn [orb]. destruct (isnet mm); reflexivity. Qed.
Ltac jbit := rewrite jamattr_bit; unfold jam_flagarray; cbn [existsb jf_fido jf_jam fst snd];
  repeat match goal with |- context [Z.testbit ?c ?j] => let v := eval cbv in (Z.testbit c j) in match v with true => change (Z.testbit c j) with true | false => change (Z.testbit c j) with false end end;
  rewrite ?andb_false_r, ?andb_true_r; cbn [orb].
Lemma jamattr_bits mm : Forall (fun p => Z.testbit (jamattr mm) (snd p) = Z.testbit (Attr mm) (fst p)) attrbits.
Proof.
  unfold attrbits. repeat (apply Forall_cons; [cbn [fst snd]; jbit; destruct (isnet mm); rewrite ?orb_false_r; first [exact (flag_pow (Attr mm) 0 ltac:(lia))|exact (flag_pow (Attr mm) 1 ltac:(lia))|exact (flag_pow (Attr mm) 4 ltac:(lia))|exact (flag_pow (Attr mm) 9 ltac:(lia))|exact (flag_pow (Attr mm) 11 ltac:(lia))|exact (flag_pow (Attr mm) 12 ltac:(lia))]|]). constructor.
Qed.
Lemma flag0 a : flag a 0 = false.
Proof. unfold flag. rewrite Z.land_0_r. reflexivity. Qed.
Lemma jamattr_plain mm : plain_attr (jamattr mm).
Proof. unfold plain_attr. repeat (apply Forall_cons; [jbit; rewrite ?flag0; destruct (isnet mm); reflexivity|]). constructor. Qed.
Lemma jamattr_present mm : Z.testbit (jamattr mm) 31 = false.
Proof. jbit. destruct (isnet mm); reflexivity. Qed.
Lemma attr_back mm file a : (file = true -> Z.testbit (Attr mm) 4 = true) -> shown_attr (jamattr mm) file a ->
  forall k, 0 <= k -> Z.testbit a k = Z.testbit (Attr mm) k && existsb (Z.eqb k) [0; 1; 4; 9; 11; 12].
Proof.
  intros Hf H k Hk. rewrite (H k Hk). pose proof (jamattr_bits mm) as B. unfold attrbits in *. repeat match goal with B : Forall _ (_ :: _) |- _ => inversion B as [|? ? ?H B']; clear B; rename B' into B end. cbn [fst snd existsb] in *.
  repeat match goal with H : Z.testbit (jamattr mm) _ = _ |- _ => rewrite H; clear H end.
  destruct (Z.eqb_spec k 0) as [->|N0]; [cbn; rewrite ?andb_true_r, ?orb_false_r; reflexivity|]. destruct (Z.eqb_spec k 1) as [->|N1]; [cbn; rewrite ?andb_true_r, ?orb_false_r; reflexivity|].
  destruct (Z.eqb_spec k 4) as [->|N4]; [cbn [andb orb Z.eqb Pos.eqb]; rewrite ?andb_true_r, ?orb_false_r; destruct file; [rewrite Hf by auto; reflexivity|apply orb_false_r]|].
  destruct (Z.eqb_spec k 9) as [->|N9]; [cbn [andb orb]; rewrite ?andb_true_r, ?orb_false_r; reflexivity|].
  destruct (Z.eqb_spec k 11) as [->|N11]; [cbn [andb orb]; rewrite ?andb_true_r, ?orb_false_r; reflexivity|].
  destruct (Z.eqb_spec k 12) as [->|N12]; [cbn [andb orb]; rewrite ?andb_true_r, ?orb_false_r; reflexivity|]. cbn. rewrite andb_false_r. reflexivity.
Qed.

(** ** Header fields *)
Lemma lastof_app n a b : lastof n (a ++ b) = if existsb (fun f => sf_lo f =? n) b then lastof n b else lastof n a.
Proof.
  unfold lastof. rewrite fold_left_app. generalize (fold_left (fun v f => if sf_lo f =? n then sf_data f else v) a []). generalize (@nil Z).
  induction b as [|f b IH]; intros u v; [reflexivity|]. cbn [fold_left existsb]. destruct (sf_lo f =? n); cbn [orb]; [reflexivity|apply IH].
Qed.
Lemma lastof_none n a b : Forall (fun f => sf_lo f <> n) b -> lastof n (a ++ b) = lastof n a.
Proof. intros H. rewrite lastof_app. replace (existsb _ b) with false; auto. symmetry. induction H as [|f b H F IH]; [reflexivity|]. cbn [existsb]. destruct (Z.eqb_spec (sf_lo f) n); [contradiction|exact IH]. Qed.
Lemma lastof_cons n lo d b : Forall (fun f => sf_lo f <> n) b -> lastof n (nonempty lo d ++ b) = if lo =? n then d else [].
Proof. intros H. rewrite lastof_none by auto. destruct d; unfold lastof; cbn; destruct (lo =? n); reflexivity. Qed.
Lemma firstfile_app a b : firstfile (a ++ b) = match firstfile a with [] => firstfile b | x => x end.
Proof.
  unfold firstfile. induction a as [|f a IH]; [reflexivity|]. cbn [app find]. destruct ((sf_lo f =? 9) && negb (Nat.eqb (length (sf_data f)) 0)) eqn:E; [|exact IH].
  apply andb_true_iff in E as [_ E]. destruct (sf_data f); [discriminate|reflexivity].
Qed.
Lemma firstfile_none l : Forall (fun f => sf_lo f <> 9) l -> firstfile l = [].
Proof. unfold firstfile. induction 1 as [|f l H F IH]; [reflexivity|]. cbn [find]. destruct (Z.eqb_spec (sf_lo f) 9); [contradiction|exact IH]. Qed.
Lemma skipsep_word s : firstword (skipsep s) = firstword s.
Proof. induction s as [|c s IH]; [reflexivity|]. cbn [skipsep]. destruct ((c =? 32) || (c =? 44)) eqn:E; [|reflexivity]. cbn [firstword]. rewrite E. exact IH. Qed.
Lemma skipsep_len s : (length (skipsep s) <= length s)%nat.
Proof. induction s as [|c s IH]; [auto|]. cbn [skipsep]. destruct (_ || _); cbn [length]; lia. Qed.
Lemma take_word s n : (length s <= n)%nat -> fst (takeuntil (fun c => (c =? 32) || (c =? 44)) n s) = word s /\ (length (snd (takeuntil (fun c => (c =? 32)%Z || (c =? 44)%Z) n s)) + length (word s) = length s)%nat.
Proof.
  revert n. induction s as [|c s IH]; intros n H; [destruct n; auto|]. cbn [length] in H. destruct n as [|n]; [lia|]. cbn [takeuntil word]. destruct ((c =? 32) || (c =? 44)) eqn:E; [auto|].
  destruct (IH n ltac:(lia)) as [I1 I2]. destruct (takeuntil _ n s) as [t rest]. cbn [fst snd] in *. rewrite <- I1 in *. cbn [length]. split; [reflexivity|lia].
Qed.
Lemma take_cstring stop n s : cstring s -> cstring (fst (takeuntil stop n s)) /\ cstring (snd (takeuntil stop n s)) /\ (length (fst (takeuntil stop n s)) <= n)%nat /\ (length (fst (takeuntil stop n s)) + length (snd (takeuntil stop n s)) = length s)%nat.
Proof.
  revert s. induction n as [|n IH]; intros s H; [cbn; repeat split; auto; constructor|]. destruct s as [|c s]; [cbn; repeat split; auto; lia|]. cbn [takeuntil]. destruct (stop c); [cbn [fst snd length]; repeat split; auto; [constructor|lia]|].
  inversion H; subst. destruct (IH s) as (I1 & I2 & I3 & I4); auto. destruct (takeuntil stop n s). cbn [fst snd length] in *. repeat split; auto; try lia. constructor; auto.
Qed.
Lemma filenames_fine fuel : forall s, cstring s -> Forall (fun n => cstring n /\ (length n <= 80)%nat) (filenames fuel s).
Proof.
  induction fuel as [|fuel IH]; intros s H; [constructor|]. cbn [filenames]. destruct s as [|c s]; [constructor|]. destruct (take_cstring (fun c => (c =? 32) || (c =? 44)) 80 (c :: s) H) as (I1 & I2 & I3 & _).
  destruct (takeuntil _ 80 (c :: s)) as [n r]. cbn [fst snd] in *.
  assert (Hr : cstring (skipsep r)). { clear -I2. unfold cstring in *. induction I2 as [|x r Hx F IHr]; [constructor|]. cbn [skipsep]. destruct (_ || _); [exact IHr|constructor; auto]. }
  destruct n; [apply IH; auto|]. constructor; auto.
Qed.
Lemma filenames_first fuel : forall s, (length s <= 80)%nat -> (length s < fuel)%nat -> match filenames fuel s with [] => firstword s = [] | n :: _ => n = firstword s /\ n <> [] end.
Proof.
  induction fuel as [|fuel IH]; intros s H80 Hf; [lia|]. cbn [filenames]. destruct s as [|c s]; [reflexivity|]. destruct (take_word (c :: s) 80 H80) as [T1 T2].
  destruct (takeuntil _ 80 (c :: s)) as [n r] eqn:Et. cbn [fst snd] in *.
  destruct n as [|n0 n].
  - assert (Ec : (c =? 32) || (c =? 44) = true). { destruct ((c =? 32) || (c =? 44)) eqn:E; auto. cbn [word] in T1. rewrite E in T1. discriminate. }
    assert (Er : r = c :: s). { cbn [takeuntil] in Et. rewrite Ec in Et. injection Et as <-. reflexivity. } subst r.
    cbn [skipsep firstword]. rewrite Ec. pose proof (skipsep_len s). cbn [length] in *. specialize (IH (skipsep s) ltac:(lia) ltac:(lia)). rewrite skipsep_word in IH. exact IH.
  - cbn [word firstword] in *. destruct ((c =? 32) || (c =? 44)); [discriminate|]. split; [exact T1|discriminate].
Qed.

(** ** Origin lines *)
Lemma lineat_whole r rest : ~ In 13 r -> lineat (r ++ 13 :: rest) = (r ++ [13], rest).
Proof. induction r as [|c r IH]; intros H; [reflexivity|]. cbn [app lineat]. destruct (Z.eqb_spec c 13); [subst; exfalso; apply H; left; auto|]. rewrite IH by (intros Hx; apply H; right; auto). reflexivity. Qed.
Lemma lastparen_none s : ~ In 40 s -> lastparen s = None.
Proof. induction s as [|c s IH]; intros H; [reflexivity|]. cbn [lastparen]. rewrite IH by (intros Hx; apply H; right; auto). destruct (Z.eqb_spec c 40); [subst; exfalso; apply H; left; auto|reflexivity]. Qed.
Lemma wf_origin_cr r : wf_origin (r ++ [13]) -> wf_origin r.
Proof.
  intros (pre & junk & n & dom & tail & E & H1 & H2 & H3 & H4 & Hj & Ht & Hd).
  destruct (exists_last (l := 41 :: tail) ltac:(discriminate)) as (t & x & Et).
  replace (pre ++ 40 :: junk ++ Print4D n ++ dom ++ 41 :: tail) with ((pre ++ 40 :: junk ++ Print4D n ++ dom ++ t) ++ [x]) in E.
  2: { rewrite Et. rewrite <- ?app_assoc. cbn [app]. rewrite <- ?app_assoc. reflexivity. }
  apply app_inj_tail in E as [-> <-]. destruct t as [|t0 t]; cbn [app] in Et; injection Et as; [discriminate|]. subst t0.
  exists pre, junk, n, dom, t. split; [reflexivity|]. subst tail. rewrite in_app_iff in Ht. repeat split; auto; try apply H1; try apply H2; try apply H3; try apply H4.
Qed.
Lemma jamorigin_ok ls : Forall (fun l => (exists r, l = r ++ [13] /\ ~ In 13 r) /\ (is_origin_line l -> (length l <= 200)%nat /\ (wf_origin l \/ ~ In 40 l))) ls ->
  forall fuel o, (length (concat ls) <= fuel)%nat -> jamorigin fuel (concat ls) o <> None.
Proof.
  induction 1 as [|l ls [(r & E & H13) Ho] F IH]; intros fuel o Hf; [destruct fuel; discriminate|]. cbn [concat] in *. rewrite app_length in Hf. assert (L : (1 <= length l)%nat) by (rewrite E, app_length; cbn; lia).
  destruct fuel as [|fuel]; [lia|]. cbn [jamorigin]. assert (Ec : exists c x, l ++ concat ls = c :: x) by (rewrite E; destruct r; cbn; eexists _, _; reflexivity). destruct Ec as (c & x & Ec). rewrite Ec, <- Ec.
  rewrite E at 1. rewrite <- app_assoc. cbn [app]. rewrite lineat_whole, <- E by auto.
  assert (K : exists o', (if Nat.ltb 11 (length l) && prefixb (lit " * Origin: ") l then match ExtractAddress (firstn (Nat.min (length l) 200 - 1) l) with PUB => None | PFail => Some o | POk n => Some n end else Some o) = Some o').
  { destruct (Nat.ltb 11 (length l)); cbn [andb]; [|eauto]. destruct (prefixb (lit " * Origin: ") l) eqn:Ep; [|eauto]. apply prefixb_spec in Ep. destruct (Ho Ep) as [H200 Hw].
    replace (firstn (Nat.min (length l) 200 - 1) l) with r. 2: { rewrite E, app_length. cbn [length]. replace (Nat.min (length r + 1) 200 - 1)%nat with (length r) by (rewrite E, app_length in H200; cbn in H200; lia). rewrite firstn_app, Nat.sub_diag, firstn_all, firstn_O, app_nil_r. reflexivity. }
    destruct Hw as [Hw|Hw].
    - rewrite E in Hw. apply wf_origin_cr in Hw. destruct (wf_origin_ok _ Hw) as (n & ->). eauto.
    - unfold ExtractAddress. rewrite lastparen_none by (intros Hx; apply Hw; rewrite E; apply in_or_app; auto). eauto. }
  destruct K as (o' & ->). cbn [obind]. apply IH. lia.
Qed.
Lemma fine_text_origin t o : fine_text t -> jamorigin (length (cstr t)) (cstr t) o <> None.
Proof. intros (ls & E & H). rewrite E. apply jamorigin_ok; auto. Qed.

(** A message with fine fields is handed on. *)
Lemma fine_shown cfg fidodate resc m : valid4d (jc_aka cfg) -> (jc_net cfg = false -> jc_tag cfg <> []) -> fine_msg cfg m ->
  exists mm oa, jam_memmsg cfg fidodate resc (a_hdr m) (a_subs m) (a_text m) = Some (mm, oa) /\ shown cfg fidodate resc m mm /\
    exists x, jamfields (JX (set_Area mm0 (if jc_net cfg then [] else jc_tag cfg)) None [] [] false) (a_subs m) = Some x /\ samenodes (jx_mm x) mm.
Proof.
  intros Hk Ht (H1 & H2 & H3). pose proof (memmsg_spec cfg fidodate resc (a_hdr m) (a_subs m) (a_text m) H1 H2 Hk Ht) as S. destruct (jam_memmsg _ _ _ _ _ _) as [[mm oa]|].
  - exists mm, oa. split; [reflexivity|destruct m; exact S].
  - destruct S as (Hn & _ & Ho). apply fine_text_origin with (o := null4d) in H3; auto. contradiction.
Qed.

(** ** The stored message *)
Definition subs_all (mm : memmsg) (ls : list (list Z)) (gs : list (list node2d * list Z)) : list jsub :=
  headsubs mm ++ flat_map subs_of ls ++ map (fun g => subfield JAMSFLD_SEENBY2D (skipn 9 (snd g))) gs ++ map (subfield JAMSFLD_PATH2D) (Path mm).
Definition stored_hdr (crc : list Z -> Z) (cfg : jcfg) (i : jimp) : jhdr :=
  let mm := ji_mm i in
  JH HEADERSIGNATURE CURRENTREVLEV 0 0 0 (crc (MSGID mm)) (crc (REPLY mm)) 0 0 0 (u32 (u32 (ji_date i) - jc_off cfg)) 0 (u32 (u32 (ji_now i) - jc_off cfg)) 0 (jamattr mm) 0 0 0 JAM_NO_CRC (Cost mm).
Lemma concat_map_concat (css : list (list (list Z))) : concat (map (@concat Z) css) = concat (concat css).
Proof. induction css as [|c css IH]; [reflexivity|]. cbn. rewrite concat_app, IH. reflexivity. Qed.
Lemma jam_message_ok crc cfg i ls : jam_ok cfg i ls -> exists gs, sblines cfg (ji_mm i) gs /\ (jc_net cfg = true -> gs = []) /\
  jam_message crc cfg i = Some (stored_hdr crc cfg i, subs_all (ji_mm i) ls gs, concat (textual ls)).
Proof.
  intros (_ & _ & _ & _ & (Hw & css & Ec & El) & (Hne & Hls) & Hk). set (mm := ji_mm i) in *.
  assert (Hlo : Forall lineok ls). { apply Forall_forall. intros l Hl. rewrite Forall_forall in Hw, Hls. split; auto. apply (Hls l Hl). }
  assert (G : exists gs, sblines cfg mm gs /\ (jc_net cfg = true -> gs = [])).
  { destruct (jc_net cfg).
    - destruct Hk as (_ & Es & _). exists []. split; auto. exists []. rewrite Es. split; [destruct (flag _ _); reflexivity|]. split; [reflexivity|]. split; [constructor|]. intros x _. cbn. tauto.
    - destruct Hk as (_ & _ & _ & Hp & _). destruct (sblines_ok cfg mm Hp) as (gs & H). exists gs. split; auto. discriminate. }
  destruct G as (gs & Hgs & Hnil). exists gs. split; auto. split; auto. destruct Hgs as (sb & Esb & Em & _).
  unfold jam_message. fold mm. rewrite Ec, jamchunks_lines by (rewrite El; exact Hlo). cbn [obind]. rewrite Esb. cbn [obind]. rewrite El. unfold after. cbn [ac_attr ac_subs ac_text app].
  rewrite Em. unfold subs_all, stored_hdr. fold mm. rewrite <- app_assoc. f_equal. f_equal.
  assert (Ht : mmtext mm <> []). { unfold mmtext. rewrite Ec, concat_map_concat, El. destruct ls as [|l ls']; [contradiction|]. inversion Hw as [|? ? (r & -> & _) _]; subst. cbn. destruct r; discriminate. }
  destruct (mmtext mm); [contradiction|reflexivity].
Qed.
Lemma print4d_text n : valid4d n -> cstring (Print4D n) /\ ~ In 64 (Print4D n) /\ (length (Print4D n) <= 23)%nat.
Proof.
  intros (H1 & H2 & H3 & H4). unfold Print4D.
  assert (D : forall v, is_u16 v -> cstring (dec v) /\ ~ In 64 (dec v) /\ (length (dec v) <= 5)%nat).
  { intros v Hv. split; [apply cstring_dec; apply Hv|]. split; [|apply dec_length_u16; auto]. intros Hx. pose proof (dec_digits v ltac:(apply Hv)) as F. rewrite Forall_forall in F. apply F in Hx. unfold digit in Hx. lia. }
  destruct (D _ H1) as (A1 & A2 & A3), (D _ H2) as (B1 & B2 & B3), (D _ H3) as (C1 & C2 & C3), (D _ H4) as (E1 & E2 & E3).
  destruct (negb (point n =? 0));
  (split; [repeat (apply cstring_app; split); auto; litc; repeat constructor; lia|]; split; [rewrite !in_app_iff; litc; cbn [In]; intuition lia|rewrite !app_length; litc; cbn [length]; lia]).
Qed.
Lemma parse5d_print n : valid4d n -> Parse5D (Print4D n) = Some (n, []).
Proof.
  intros H. destruct (print4d_text n H) as (_ & H64 & Hl). unfold Parse5D. rewrite firstn_all2 by lia. rewrite cutat_none by auto. rewrite print_parse by auto. reflexivity.
Qed.

(** ** Reading it back *)
Lemma jamfields_app a : forall x b, jamfields x (a ++ b) = do x' <- jamfields x a; jamfields x' b.
Proof. induction a as [|f a IH]; intros x b; [reflexivity|]. cbn [app jamfields]. destruct (jamfield x f); cbn [obind]; auto. Qed.
Lemma field_addr x f x' : jamfield x f = Some x' -> sf_lo f <> 1 -> jx_addr x' = jx_addr x.
Proof.
  intros E N. unfold jamfield in E. cbv zeta in E.
  assert (K : forall pre, option_map (fun mm => JX mm (jx_buf x) (jx_file x) (jx_flags x) (jx_addr x)) (jam_makekludge (jx_mm x) pre (sf_data f)) = Some x' -> jx_addr x' = jx_addr x).
  { intros pre. clear E. destruct (jam_makekludge (jx_mm x) pre (sf_data f)); cbn [option_map]; [|discriminate]. intros H. injection H as <-. reflexivity. }
  assert (B : forall g, option_map (fun b => JX (g b) (Some b) (jx_file x) (jx_flags x) (jx_addr x)) (fieldcpy 200 (sf_data f)) = Some x' -> jx_addr x' = jx_addr x).
  { intros g. clear E. destruct (fieldcpy 200 (sf_data f)); cbn [option_map]; [|discriminate]. intros H. injection H as <-. reflexivity. }
  destruct (sf_lo f =? JAMSFLD_OADDRESS); [eapply B; exact E|]. destruct (Z.eqb_spec (sf_lo f) JAMSFLD_DADDRESS) as [E1|_]; [contradiction|].
  repeat match type of E with (if ?c then _ else _) = _ => destruct c end; try (eapply K; exact E); try (eapply B; exact E); try congruence.
  - destruct (fieldcpy 200 (sf_data f)); cbn [option_map] in E; [|discriminate]. injection E as <-. reflexivity.
  - destruct (fieldcpy 192 (sf_data f)); cbn [option_map] in E; [|discriminate]. injection E as <-. reflexivity.
Qed.
Lemma fields_addr l : forall x x', jamfields x l = Some x' -> Forall (fun f => sf_lo f <> 1) l -> jx_addr x' = jx_addr x.
Proof. induction l as [|f l IH]; intros x x' E F; [injection E as <-; reflexivity|]. inversion F; subst. cbn [jamfields] in E. destruct (jamfield x f) as [x1|] eqn:E1; [|discriminate]. cbn [obind] in E. rewrite (IH _ _ E) by auto. eapply field_addr; eauto. Qed.
Lemma lastof_skip n a b : Forall (fun f => sf_lo f <> n) a -> lastof n (a ++ b) = lastof n b.
Proof.
  intros H. rewrite lastof_app. destruct (existsb (fun f => sf_lo f =? n) b) eqn:E; auto. transitivity (@nil Z); [pose proof (lastof_none n [] a H) as E0; exact E0|].
  symmetry. apply (lastof_none n [] b). apply Forall_forall. intros f Hf En. assert (existsb (fun f => sf_lo f =? n) b = true) by (apply existsb_exists; exists f; split; auto; apply Z.eqb_eq; auto). congruence.
Qed.
Section Back.
  Context (mm : memmsg) (ls : list (list Z)) (gs : list (list node2d * list Z)).
  Definition names3 : list jsub := nonempty JAMSFLD_SENDERNAME (From mm) ++ nonempty JAMSFLD_RECVRNAME (To mm) ++ nonempty JAMSFLD_SUBJECT (Subject mm).
  Definition addrs : list jsub := if isnet mm then [subfield JAMSFLD_OADDRESS (Print4D (OrigNode mm)); subfield JAMSFLD_DADDRESS (Print4D (DestNode mm))] else [subfield JAMSFLD_OADDRESS (Print4D (Origin4D mm))].
  Definition files : list jsub :=
    (if flag (Attr mm) FLAG_FILEATTACH then map (subfield JAMSFLD_ENCLFILE) (filenames (S (length (Subject mm))) (Subject mm)) else []) ++
    (if flag (Attr mm) FLAG_FILEREQ then map (subfield JAMSFLD_ENCLFREQ) (filenames (S (length (Subject mm))) (Subject mm)) else []).
  Definition rest : list jsub := flat_map subs_of ls ++ map (fun g => subfield JAMSFLD_SEENBY2D (skipn 9 (snd g))) gs ++ map (subfield JAMSFLD_PATH2D) (Path mm).
  Lemma subs_split : subs_all mm ls gs = names3 ++ addrs ++ files ++ rest.
  Proof. unfold subs_all, headsubs, names3, addrs, files, rest. rewrite <- !app_assoc. reflexivity. Qed.
  Definition los (l : list Z) (subs : list jsub) : Prop := Forall (fun f => In (sf_lo f) l) subs.
  Lemma los_nonempty lo d : los [lo] (nonempty lo d).
  Proof. destruct d; constructor; [left; reflexivity|constructor]. Qed.
  Lemma los_names : los [2; 3; 6] names3.
  Proof. unfold names3, los. repeat (apply Forall_app; split); (eapply Forall_impl; [|apply los_nonempty]); cbn; intuition lia. Qed.
  Lemma los_addrs : los [0; 1] addrs.
  Proof. unfold addrs, los. destruct (isnet mm); repeat (apply Forall_cons; [cbn; auto|]); apply Forall_nil. Qed.
  Lemma los_files : los [9; 11] files.
  Proof. unfold files, los. apply Forall_app. split; (destruct (flag _ _); [|constructor]); apply Forall_map, Forall_forall; intros; cbn; auto. Qed.
  Lemma los_rest : los [4; 5; 7; 2000; 2001; 2002] rest.
  Proof. unfold rest, los. apply Forall_app. split; [eapply Forall_impl; [|apply subs_lo]; cbn; intuition lia|]. apply Forall_app. split; apply Forall_map, Forall_forall; intros; cbn; auto 9. Qed.
  Lemma los_not n l subs : los l subs -> ~ In n l -> Forall (fun f => sf_lo f <> n) subs.
  Proof. intros H N. eapply Forall_impl; [|exact H]. cbv beta. intros f Hf E. subst n. contradiction. Qed.
  Ltac nolo := first [eapply los_not; [apply los_nonempty|cbn; intuition discriminate]|eapply los_not; [apply los_names|cbn; intuition discriminate]|eapply los_not; [apply los_addrs|cbn; intuition discriminate]|eapply los_not; [apply los_files|cbn; intuition discriminate]|eapply los_not; [apply los_rest|cbn; intuition discriminate]|apply Forall_app; split; nolo].
  Lemma nonempty_last n d : lastof n (nonempty n d) = d.
  Proof. destruct d; [reflexivity|]. unfold lastof. cbn. rewrite Z.eqb_refl. reflexivity. Qed.
  Lemma last_from : lastof 2 (subs_all mm ls gs) = From mm.
  Proof. rewrite subs_split. rewrite lastof_none by nolo. unfold names3. rewrite lastof_none by nolo. apply nonempty_last. Qed.
  Lemma last_to : lastof 3 (subs_all mm ls gs) = To mm.
  Proof. rewrite subs_split. rewrite lastof_none by nolo. unfold names3. rewrite lastof_skip, lastof_none by nolo. apply nonempty_last. Qed.
  Lemma last_subject : lastof 6 (subs_all mm ls gs) = Subject mm.
  Proof. rewrite subs_split. rewrite lastof_none by nolo. unfold names3. rewrite lastof_skip, lastof_skip by nolo. apply nonempty_last. Qed.
  Lemma first_file : (length (Subject mm) <= 71)%nat -> firstfile (subs_all mm ls gs) = if flag (Attr mm) FLAG_FILEATTACH then firstword (Subject mm) else [].
  Proof.
    intros Hl. rewrite subs_split. rewrite !firstfile_app. rewrite (firstfile_none names3) by nolo. rewrite (firstfile_none addrs) by nolo. rewrite (firstfile_none rest) by nolo. unfold files. rewrite firstfile_app.
    rewrite (firstfile_none (if flag (Attr mm) FLAG_FILEREQ then _ else _)). 2: { destruct (flag _ _); [|constructor]. apply Forall_map, Forall_forall. intros; cbn; discriminate. }
    destruct (flag (Attr mm) FLAG_FILEATTACH); [|reflexivity].
    pose proof (filenames_first (S (length (Subject mm))) (Subject mm) ltac:(lia) ltac:(lia)) as H. destruct (filenames _ _) as [|n ns]; [rewrite H; reflexivity|]. destruct H as [-> Hn].
    cbn [map]. unfold firstfile. cbn [find sf_lo sf_data subfield]. destruct (firstword (Subject mm)) eqn:E; [contradiction|reflexivity].
  Qed.
  Lemma lines_none l subs : los l subs -> (forall n, In n l -> ~ In n [4; 5; 7; 2000; 2001; 2002]) -> lines_of subs = [].
  Proof.
    intros H Hn. unfold lines_of. induction H as [|f subs Hf F IH]; [reflexivity|]. cbn [flat_map]. rewrite IH, app_nil_r. specialize (Hn _ Hf). unfold line_of.
    repeat match goal with |- context [?a =? ?b] => destruct (Z.eqb_spec a b); [exfalso; apply Hn; cbn; auto 9|] end. reflexivity.
  Qed.
  Lemma lines_all : Forall lineok ls -> Forall (fun g => sbline (fst g) (snd g)) gs ->
    lines_of (subs_all mm ls gs) = map norm (controls ls) ++ map (fun g => snd g ++ [13]) gs ++ map (fun p => 1 :: lit "PATH: " ++ p ++ [13]) (Path mm).
  Proof.
    intros Hl Hg. rewrite subs_split. unfold lines_of. rewrite !flat_map_app. fold (lines_of names3) (lines_of addrs) (lines_of files) (lines_of rest).
    rewrite (lines_none _ _ los_names), (lines_none _ _ los_addrs), (lines_none _ _ los_files) by (cbn; intuition lia). cbn [app].
    unfold rest, lines_of. rewrite !flat_map_app. fold (lines_of (flat_map subs_of ls)). rewrite (proj1 (subs_lines ls Hl)). f_equal. f_equal.
    - induction Hg as [|g gs' H F IH]; [reflexivity|]. cbn [map flat_map]. rewrite IH. unfold line_of. cbn [sf_lo sf_data subfield]. change (JAMSFLD_SEENBY2D =? 4) with false. change (JAMSFLD_SEENBY2D =? 5) with false. change (JAMSFLD_SEENBY2D =? 7) with false. change (JAMSFLD_SEENBY2D =? 2000) with false. change (JAMSFLD_SEENBY2D =? 2001) with true. cbv iota. cbn [app]. f_equal. rewrite app_assoc, (sbline_skip _ _ H). reflexivity.
    - induction (Path mm) as [|p ps IH]; [reflexivity|]. cbn [map flat_map]. rewrite IH. reflexivity.
  Qed.
  (** the addresses *)
  Lemma nodes_back area x : (isnet mm = true -> valid4d (OrigNode mm) /\ valid4d (DestNode mm)) -> (isnet mm = false -> valid4d (Origin4D mm)) -> Forall fine_field (subs_all mm ls gs) ->
    (area <> [] \/ Forall (fun l => isroute l = false) (lines_of rest)) ->
    jamfields (JX (set_Area mm0 area) None [] [] false) (subs_all mm ls gs) = Some x ->
    OrigNode (jx_mm x) = (if isnet mm then OrigNode mm else Origin4D mm) /\ DestNode (jx_mm x) = (if isnet mm then DestNode mm else null4d).
  Proof.
    intros Hv1 Hv2 Hf Hr E. rewrite subs_split in E, Hf. apply Forall_app in Hf as [F1 Hf]. apply Forall_app in Hf as [F2 Hf]. rewrite jamfields_app in E.
    set (x0 := JX (set_Area mm0 area) None [] [] false) in *.
    destruct (jamfields_steps names3 x0 F1) as (x1 & E1 & S1); [constructor|repeat split; cbn; lia|]. rewrite E1 in E. cbn [obind] in E.
    destruct S1 as [K1 G1 _ _ _ _ _ N1]. destruct N1 as [O1 D1].
    { apply Forall_forall. intros f Hin. pose proof los_names as L. unfold los in L. rewrite Forall_forall in L. specialize (L f Hin). split; [cbn in L; intuition lia|]. split; [cbn in L; intuition lia|]. right.
      unfold line_of. repeat match goal with |- context [?a =? ?b] => destruct (Z.eqb_spec a b); [cbn in L; intuition lia|] end. constructor. }
    pose proof (fields_addr _ _ _ E1 ltac:(nolo)) as A1. cbn [x0 jx_addr jx_mm] in A1, O1, D1.
    rewrite jamfields_app in E.
    assert (S2 : exists x2, jamfields x1 addrs = Some x2 /\ kept (jx_mm x1) (jx_mm x2) /\ chunks_ok (TextChunks (jx_mm x2)) /\ vnodes (jx_mm x2) /\ OrigNode (jx_mm x2) = (if isnet mm then OrigNode mm else Origin4D mm) /\ DestNode (jx_mm x2) = (if isnet mm then DestNode mm else null4d)).
    { pose proof G1 as (C1 & V1 & _). unfold addrs. destruct (isnet mm).
      - destruct (Hv1 eq_refl) as [Ho Hd]. destruct (print4d_text _ Ho) as (P1 & _ & P2). destruct (print4d_text _ Hd) as (P3 & _ & P4).
        cbn [jamfields]. unfold jamfield at 1. cbn [sf_lo sf_data subfield]. change (JAMSFLD_OADDRESS =? JAMSFLD_OADDRESS) with true. cbv iota. rewrite fieldcpy_ok by (auto; lia). cbn [option_map obind]. rewrite parse5d_print by auto.
        unfold jamfield at 1. cbn [sf_lo sf_data subfield]. change (JAMSFLD_DADDRESS =? JAMSFLD_OADDRESS) with false. change (JAMSFLD_DADDRESS =? JAMSFLD_DADDRESS) with true. cbv iota. rewrite fieldcpy_ok by (auto; lia). cbn [obind jx_addr]. rewrite A1. rewrite parse5d_print by auto. eexists. split; [reflexivity|]. cbn [jx_mm]. split; [unfold kept; auto|]. split; [exact C1|]. split; [split; assumption|]. split; reflexivity.
      - pose proof (Hv2 eq_refl) as Ho. destruct (print4d_text _ Ho) as (P1 & _ & P2).
        cbn [jamfields]. unfold jamfield at 1. cbn [sf_lo sf_data subfield]. change (JAMSFLD_OADDRESS =? JAMSFLD_OADDRESS) with true. cbv iota. rewrite fieldcpy_ok by (auto; lia). cbn [option_map obind]. rewrite parse5d_print by auto.
        eexists. split; [reflexivity|]. cbn [jx_mm]. split; [unfold kept; auto|]. split; [exact C1|]. split; [split; [assumption|apply V1]|]. split; [reflexivity|]. cbn. rewrite D1. reflexivity. }
    destruct S2 as (x2 & E2 & K2 & C2 & V2 & O2 & D2). rewrite E2 in E. cbn [obind] in E.
    destruct (jamfields_steps (files ++ rest) x2 Hf C2 V2) as (x3 & E3 & S3). rewrite E3 in E. injection E as <-. destruct S3 as [_ _ _ _ _ _ _ N3]. destruct N3 as [O3 D3]; [|split; congruence].
    assert (EA : Area (jx_mm x2) = area) by (destruct K2 as (-> & _), K1 as (-> & _); reflexivity).
    apply Forall_app. split.
    - apply Forall_forall. intros f Hin. pose proof los_files as L. unfold los in L. rewrite Forall_forall in L. specialize (L f Hin). split; [cbn in L; intuition lia|]. split; [cbn in L; intuition lia|]. right.
      unfold line_of. repeat match goal with |- context [?a =? ?b] => destruct (Z.eqb_spec a b); [cbn in L; intuition lia|] end. constructor.
    - apply Forall_forall. intros f Hin. pose proof los_rest as L. unfold los in L. rewrite Forall_forall in L. specialize (L f Hin). split; [cbn in L; intuition lia|]. split; [cbn in L; intuition lia|]. rewrite EA. destruct Hr as [Hr|Hr]; auto. right.
      apply Forall_forall. intros l Hl. rewrite Forall_forall in Hr. apply Hr. unfold lines_of. apply in_flat_map. eauto.
  Qed.
End Back.

(** ** What is stored is stored well *)
Lemma lor_u32 a b : is_u32 a -> is_u32 b -> is_u32 (Z.lor a b).
Proof.
  unfold is_u32. intros [A1 A2] [B1 B2]. assert (H0 : 0 <= Z.lor a b) by (apply Z.lor_nonneg; auto). split; auto.
  destruct (Z.eq_dec (Z.lor a b) 0) as [->|N]; [lia|]. change 4294967296 with (2 ^ 32). apply Z.log2_lt_pow2; [lia|]. rewrite Z.log2_lor by auto. apply Z.max_lub_lt.
  - destruct (Z.eq_dec a 0) as [->|]; [reflexivity|]. apply Z.log2_lt_pow2; lia.
  - destruct (Z.eq_dec b 0) as [->|]; [reflexivity|]. apply Z.log2_lt_pow2; lia.
Qed.
Lemma jamattr_u32 mm : is_u32 (jamattr mm).
Proof.
  unfold jamattr. apply lor_u32; [|destruct (isnet mm); unfold is_u32, MSG_TYPENET, MSG_TYPEECHO; lia].
  assert (G : forall l a, Forall (fun x => is_u32 (jf_jam x)) l -> is_u32 a -> is_u32 (fold_left (fun a x => if flag (Attr mm) (jf_fido x) then Z.lor a (jf_jam x) else a) l a)).
  { induction l as [|x l IH]; intros a F Ha; [exact Ha|]. inversion F; subst. cbn [fold_left]. apply IH; auto. destruct (flag _ _); auto. apply lor_u32; auto. }
  apply G; [|unfold is_u32; lia]. unfold jam_flagarray, is_u32. repeat (apply Forall_cons; [cbn [jf_jam fst snd]; unfold MSG_SENT, MSG_FILEATTACH, MSG_FILEREQUEST, MSG_LOCAL; lia|]). constructor.
Qed.
Lemma field_len n s : field n s -> (length s <= n)%nat.
Proof. intros [_ H]. exact H. Qed.
Lemma u32_u32 v : is_u32 (u32 v).
Proof. unfold is_u32, u32. apply Z.mod_pos_bound. lia. Qed.
Lemma isnet_cfg cfg i ls : jam_ok cfg i ls -> isnet (ji_mm i) = jc_net cfg.
Proof. intros (_ & _ & _ & _ & _ & _ & H). unfold isnet. destruct (jc_net cfg); [destruct H as (-> & _); reflexivity|]. destruct H as (H & _). destruct (Area (ji_mm i)); [contradiction|reflexivity]. Qed.
Lemma ok_lines cfg i ls : jam_ok cfg i ls -> Forall lineok ls.
Proof. intros (_ & _ & _ & _ & (Hw & _) & (_ & Hls) & _). apply Forall_forall. intros l Hl. rewrite Forall_forall in Hw, Hls. split; auto. apply (Hls l Hl). Qed.
Lemma stored_op crc cfg i ls gs : (forall u, is_u32 (crc u)) -> jam_ok cfg i ls ->
  opsize (Add (stored_hdr crc cfg i) (subs_all (ji_mm i) ls gs) (concat (textual ls))) < 2147483648 ->
  op_fine (Add (stored_hdr crc cfg i) (subs_all (ji_mm i) ls gs) (concat (textual ls))).
Proof.
  intros Hcrc Hok Hsz. pose proof Hok as (_ & _ & _ & Hh & _). destruct Hh as (_ & Hto & _ & _ & _ & Hcost & _). cbn [opsize] in Hsz.
  assert (Hss : forall l, 0 <= subsize l) by (induction l; cbn [subsize fold_right]; [lia|unfold subsize in *; lia]).
  pose proof (Hss (subs_all (ji_mm i) ls gs)). cbn [op_fine]. split; [|split; [|split; lia]].
  - split; [reflexivity|]. unfold stored_hdr. cbn. split; [unfold is_u16, CURRENTREVLEV; lia|]. split; [unfold is_u16; lia|]. assert (Z0 : is_u32 0) by (unfold is_u32; lia).
    repeat (apply Forall_cons; [first [exact Z0|apply Hcrc|apply u32_u32|apply jamattr_u32|unfold is_u32, JAM_NO_CRC; lia|unfold is_u16, is_u32 in *; lia]|]). constructor.
  - rewrite subs_split. set (mm := ji_mm i) in *.
    assert (G : forall l subs, los l subs -> Forall is_u16 l -> ~ In 3 l -> Forall (fun f => sf_hi f = 0) subs -> Forall sub_fine subs).
    { intros l subs L F N H0. unfold los in L. rewrite Forall_forall in *. intros f Hf. specialize (L f Hf). split; auto. split; [rewrite (H0 f Hf); unfold is_u16; lia|]. intros E. unfold JAMSFLD_RECVRNAME in E. rewrite E in L. contradiction. }
    assert (U : forall l, Forall (fun x => 0 <= x < 65536) l -> Forall is_u16 l) by auto.
    repeat (match goal with |- Forall _ (names3 _ ++ _) => idtac | |- Forall _ (addrs _ ++ _) => idtac | |- Forall _ (files _ ++ _) => idtac end; apply Forall_app; split).
    + unfold names3. assert (N : forall lo d, is_u16 lo -> (lo = 3 -> (length d <= 100)%nat) -> Forall sub_fine (nonempty lo d)).
      { intros lo d H1 H2. destruct d; [constructor|]. constructor; [|constructor]. split; [exact H1|]. split; [unfold is_u16; cbn; lia|exact H2]. }
      pose proof (field_len _ _ Hto). repeat (apply Forall_app; split); apply N; unfold is_u16, JAMSFLD_SENDERNAME, JAMSFLD_RECVRNAME, JAMSFLD_SUBJECT; try lia.
    + eapply G; [apply los_addrs|apply U; repeat constructor; lia|cbn; intuition lia|]. unfold addrs. destruct (isnet mm); repeat constructor.
    + eapply G; [apply los_files|apply U; repeat constructor; lia|cbn; intuition lia|]. unfold files. apply Forall_app. split; (destruct (flag _ _); [|constructor]); apply Forall_map, Forall_forall; reflexivity.
    + eapply G; [apply los_rest|apply U; repeat constructor; lia|cbn; intuition lia|]. unfold rest. apply Forall_app. split; [|apply Forall_app; split; apply Forall_map, Forall_forall; reflexivity].
      clear. induction ls as [|l ls IH]; [constructor|]. cbn [flat_map]. apply Forall_app. split; auto. unfold subs_of. destruct (_ && _); [|constructor]. constructor; [|constructor]. unfold sub_of. destruct (prefixb _ l); [reflexivity|]. destruct (prefixb _ l); [reflexivity|]. destruct (prefixb _ l); reflexivity.
Qed.
Lemma sb_cstring es line : sbline es line -> pairs_ok es -> cstring (skipn 9 line).
Proof. intros H1 H2. apply cstring_skipn. destruct (sbline_crline _ _ H1 H2) as [(H & _) _]. apply cstring_app in H as [H _]. exact H. Qed.
Lemma textual_in ls l : In l (textual ls) <-> In l ls /\ isctl l = false.
Proof. unfold textual. rewrite filter_In, negb_true_iff. tauto. Qed.
Lemma stored_fine cfg i ls gs crc num : jam_ok cfg i ls -> sblines cfg (ji_mm i) gs ->
  fine_msg cfg (MSG (newhdr num (stored_hdr crc cfg i) (subs_all (ji_mm i) ls gs) (concat (textual ls))) (subs_all (ji_mm i) ls gs) (concat (textual ls))).
Proof.
  intros Hok (sb & _ & _ & Hgs & _). pose proof (isnet_cfg _ _ _ Hok) as Enet. pose proof (ok_lines _ _ _ Hok) as Hlines. destruct Hok as (Hcf & Hct & Hcs & Hh & (Hw & _) & (_ & Hls) & Hk). set (mm := ji_mm i) in *.
  destruct Hh as (_ & Hto & Hfr & Hsu & _ & _ & Ho & Hd). split; [|split; [apply jamattr_plain|]].
  - cbn [a_subs]. rewrite subs_split. unfold fine_field.
    assert (N : forall lo d, cstring d -> (length d < 200)%nat -> lo <> 2003 -> Forall fine_field (nonempty lo d)).
    { intros lo d H1 H2 H3. destruct d; [constructor|]. constructor; [|constructor]. split; [exact H1|]. split; [exact H3|]. intros _. exact H2. }
    apply Forall_app; split; [|apply Forall_app; split; [|apply Forall_app; split]].
    + unfold names3. pose proof (field_len _ _ Hto). pose proof (field_len _ _ Hfr). pose proof (field_len _ _ Hsu). repeat (apply Forall_app; split); apply N; auto; try lia; discriminate.
    + assert (A : forall lo n, valid4d n -> lo <> 2003 -> fine_field (subfield lo (Print4D n))). { intros lo n H1 H2. destruct (print4d_text n H1) as (A1 & _ & A2). split; [exact A1|]. split; [exact H2|]. cbn. lia. }
      unfold addrs. rewrite Enet. destruct (jc_net cfg); [repeat (apply Forall_cons; [apply A; auto; discriminate|]); constructor|]. destruct Hk as (_ & _ & Hv & _). apply Forall_cons; [apply A; auto; discriminate|constructor].
    + unfold files. apply Forall_app. split; (destruct (flag _ _); [|constructor]); apply Forall_map; (eapply Forall_impl; [|apply filenames_fine; exact Hcs]); cbn; intros n (H1 & H2); (split; [exact H1|]); (split; [discriminate|lia]).
    + assert (R : forall f, cstring (sf_data f) -> In (sf_lo f) [4; 5; 7; 2000; 2001; 2002] -> fine_field f).
      { intros f H1 H2. split; [exact H1|]. split; [cbn in H2; intuition lia|]. intros H3. cbn in H2, H3. intuition lia. }
      apply Forall_forall. intros f Hf. apply R; [|pose proof (los_rest mm ls gs) as L; unfold los in L; rewrite Forall_forall in L; auto]. unfold rest in Hf. apply in_app_or in Hf as [Hf|Hf].
      * destruct (subs_lines ls Hlines) as [_ F]. rewrite Forall_forall in F. auto.
      * apply in_app_or in Hf as [Hf|Hf]; apply in_map_iff in Hf as (g & <- & Hg); cbn [sf_data subfield].
        -- rewrite Forall_forall in Hgs. destruct (Hgs g Hg) as (G1 & _ & G2). eapply sb_cstring; eauto.
        -- destruct (jc_net cfg); [destruct Hk as (_ & _ & Hp); rewrite Hp in Hg; contradiction|]. destruct Hk as (_ & _ & _ & _ & Hp). rewrite Forall_forall in Hp. destruct (Hp g Hg) as [->|(_ & H & _)]; [constructor|exact H].
  - intros Hn. cbn [a_text]. exists (textual ls).
    assert (Hc : cstring (concat (textual ls))). { apply cstring_concat. apply Forall_forall. intros l Hl. apply textual_in in Hl as [Hl _]. rewrite Forall_forall in Hw. destruct (Hw l Hl) as (r & -> & H & _). apply cstring_app. split; auto. repeat constructor; lia. }
    split; [apply cstr_cstring; exact Hc|]. apply Forall_forall. intros l Hl. apply textual_in in Hl as [Hl _]. rewrite Forall_forall in Hw, Hls. destruct (Hw l Hl) as (r & -> & _ & H & _). split; [eauto|]. intros Hor. destruct (Hls _ Hl) as (_ & H2 & _). exact (H2 Hn Hor).
Qed.

(** ** What comes back *)
Lemma filter_all' {A} (f : A -> bool) l : Forall (fun x => f x = true) l -> filter f l = l.
Proof. induction 1 as [|x l H F IH]; [reflexivity|]. cbn. rewrite H, IH. reflexivity. Qed.
Lemma filter_none' {A} (f : A -> bool) l : Forall (fun x => f x = false) l -> filter f l = [].
Proof. induction 1 as [|x l H F IH]; [reflexivity|]. cbn. rewrite H, IH. reflexivity. Qed.
Lemma norm_ctl l : exists r, norm l = 1 :: r.
Proof. unfold norm. destruct (prefixb _ l); [eauto|]. destruct (prefixb _ l); [eauto|]. destruct (prefixb _ l); eauto. Qed.
Lemma stored_back crc cfg fidodate i ls gs num mm' x : valid4d (jc_aka cfg) -> jam_ok cfg i ls -> sblines cfg (ji_mm i) gs -> (jc_net cfg = true -> gs = []) ->
  let m := MSG (newhdr num (stored_hdr crc cfg i) (subs_all (ji_mm i) ls gs) (concat (textual ls))) (subs_all (ji_mm i) ls gs) (concat (textual ls)) in
  shown cfg fidodate true m mm' -> jamfields (JX (set_Area mm0 (if jc_net cfg then [] else jc_tag cfg)) None [] [] false) (a_subs m) = Some x -> samenodes (jx_mm x) mm' ->
  jam_back cfg fidodate i ls mm'.
Proof.
  intros Hak Hok Hgs Hnil m Sh Ex Sn. pose proof (stored_fine cfg i ls gs crc num Hok Hgs) as (Hff & _). pose proof (isnet_cfg _ _ _ Hok) as Enet. pose proof (ok_lines _ _ _ Hok) as Hlines. destruct Hgs as (sb & _ & _ & Hgs & Hent).
  destruct Hok as (Hcf & Hct & Hcs & Hh & (Hw & _) & (_ & Hls) & Hk). unfold m in *. clear m. cbn [a_subs a_hdr a_text] in *. set (mm := ji_mm i) in *.
  destruct Hh as (_ & Hto & Hfr & Hsu & _ & Hcost & Ho & Hd). apply field_len in Hto, Hfr, Hsu. unfold shown in Sh. cbn [a_subs a_hdr a_text] in Sh. destruct Sh as (S1 & S2 & S3 & S4 & S5 & S6 & S7).
  rewrite last_from in S1. rewrite last_to in S2. rewrite (first_file mm ls gs ltac:(lia)) in S3, S6. rewrite last_subject in S3.
  rewrite (flag_bit _ 4 ltac:(lia) : flag _ FLAG_FILEATTACH = _) in S3, S6.
  assert (Hlen : (length (firstword (Subject mm)) <= length (Subject mm))%nat).
  { clear. assert (W : forall s, (length (word s) <= length s)%nat) by (induction s as [|c s IH]; cbn; [auto|]; destruct (_ || _); cbn; lia). induction (Subject mm) as [|c s IH]; [auto|]. cbn [firstword]. destruct (_ || _); [cbn [length]; lia|apply W]. }
  assert (LA := lines_all mm ls gs Hlines ltac:(eapply Forall_impl; [|exact Hgs]; cbn; tauto)).
  assert (LR : lines_of (rest mm ls gs) = lines_of (subs_all mm ls gs)).
  { rewrite subs_split. unfold lines_of. rewrite !flat_map_app. fold (lines_of (names3 mm)) (lines_of (addrs mm)) (lines_of (files mm)).
    rewrite (lines_none _ _ (los_names mm)), (lines_none _ _ (los_addrs mm)), (lines_none _ _ (los_files mm)) by (cbn; intuition lia). reflexivity. }
  assert (NB : OrigNode mm' = (if jc_net cfg then OrigNode mm else Origin4D mm) /\ DestNode mm' = (if jc_net cfg then DestNode mm else null4d)).
  { destruct Sn as [-> ->]. rewrite <- Enet in Ex |- *. apply (nodes_back mm ls gs (if isnet mm then [] else jc_tag cfg) x).
    - auto.
    - intros E. rewrite <- Enet, E in Hk. apply Hk.
    - exact Hff.
    - rewrite LR, LA. rewrite Enet. rewrite <- Enet in Hk. destruct (isnet mm) eqn:En; [|left; rewrite <- Enet; apply Hk].
      right. rewrite <- Enet in Hnil. rewrite (Hnil eq_refl). destruct Hk as (_ & _ & Hp). rewrite Hp. cbn [map app]. rewrite app_nil_r. apply Forall_map, Forall_forall. intros l Hl. unfold controls in Hl. apply filter_In in Hl as [Hl1 Hl2]. apply andb_true_iff in Hl2 as [Hl2 Hl3]. apply negb_true_iff in Hl3.
      rewrite Forall_forall in Hls. destruct (Hls l Hl1) as (_ & _ & H). rewrite <- Enet in H. specialize (H Hl2 Hl3). exact H.
    - exact Ex. }
  destruct NB as [NB1 NB2]. unfold jam_back. fold mm. split; [rewrite S1; apply firstn_all2; lia|]. split; [rewrite S2; apply firstn_all2; lia|]. split.
  { rewrite S3. unfold subject_back. destruct (Z.testbit (Attr mm) 4); [|apply firstn_all2; lia]. destruct (firstword (Subject mm)) eqn:Ef; apply firstn_all2; lia. }
  split. { rewrite S4. unfold date_back. f_equal. f_equal. cbn [h_written newhdr stored_hdr]. unfold u32. rewrite Zminus_mod_idemp_l. reflexivity. }
  split. { rewrite S5. cbn [h_cost newhdr stored_hdr]. apply Z.mod_small. exact Hcost. }
  split. { intros k Hk0. eapply attr_back; [|exact S6|exact Hk0]. destruct (Z.testbit (Attr mm) 4); [auto|discriminate]. }
  rewrite LA in S7. destruct (jc_net cfg).
  - destruct S7 as (Ha & Ht). split; [exact Ha|]. split; [exact NB1|]. split; [exact NB2|]. rewrite Ht, NB1, NB2. rewrite (Hnil eq_refl). destruct Hk as (_ & _ & Hp). rewrite Hp. cbn [map app]. rewrite app_nil_r. reflexivity.
  - destruct S7 as (Ha & Ht & Hp & Hs). destruct Hk as (_ & _ & _ & _ & Hpa).
    set (cl := map norm (controls ls)) in *. set (sbl := map (fun g : list node2d * list Z => snd g ++ [13]) gs) in *. set (pal := map (fun p => 1 :: lit "PATH: " ++ p ++ [13]) (Path mm)) in *.
    assert (C1 : Forall (fun l => seenbyb l = false) cl). { apply Forall_map, Forall_forall. intros l _. destruct (norm_ctl l) as (r & ->). reflexivity. }
    assert (C2 : Forall (fun l => pathb l = false) cl).
    { apply Forall_map, Forall_forall. intros l Hl. unfold controls in Hl. apply filter_In in Hl as [Hl1 Hl2]. apply andb_true_iff in Hl2 as [Hl2 Hl3]. apply negb_true_iff in Hl3. rewrite Forall_forall in Hls. destruct (Hls l Hl1) as (_ & _ & H). specialize (H Hl2 Hl3). apply prefixb_false. exact H. }
    assert (B1 : Forall (fun l => seenbyb l = true /\ pathb l = false) sbl).
    { apply Forall_map. eapply Forall_impl; [|exact Hgs]. cbn. intros g (G1 & _ & G2). destruct (sbline_crline _ _ G1 G2) as [_ (r & ->)]. split; reflexivity. }
    assert (P1 : Forall (fun l => seenbyb l = false /\ pathb l = true) pal) by (apply Forall_map, Forall_forall; intros p _; split; reflexivity).
    split; [exact Ha|]. split; [exact NB1|]. split; [|split].
    + rewrite Ht. f_equal. unfold plain_lines. rewrite !filter_app. rewrite (filter_none' _ sbl), (filter_none' _ pal), filter_all'; [cbn [app]; rewrite app_nil_r; reflexivity|..].
      * apply Forall_forall. intros l Hl. rewrite Forall_forall in C1, C2. rewrite C1, C2 by auto. reflexivity.
      * eapply Forall_impl; [|exact P1]. cbn. intros l [_ ->]. apply andb_false_r.
      * eapply Forall_impl; [|exact B1]. cbn. intros l [-> _]. reflexivity.
    + rewrite Hp. unfold path_lines. rewrite !filter_app. rewrite (filter_none' _ cl), (filter_none' _ sbl), filter_all'; cbn [app].
      * unfold pal. rewrite map_map. rewrite <- (map_id (Path mm)) at 2. apply map_ext_in. intros p Hin. rewrite Forall_forall in Hpa. change (skipn 7 (1 :: lit "PATH: " ++ p ++ [13])) with (p ++ [13]).
        assert (Hp' : (length p <= 99)%nat /\ striptrail p = p) by (destruct (Hpa p Hin) as [->|(_ & _ & _ & _ & H1 & H2)]; [split; [cbn; lia|reflexivity]|auto]). destruct Hp' as [Hl Hst].
        destruct (Nat.eq_dec (length p) 99) as [El|El].
        -- rewrite firstn_app, firstn_all2 by lia. replace (99 - length p)%nat with O by lia. rewrite firstn_O, app_nil_r. auto.
        -- rewrite firstn_all2 by (rewrite app_length; cbn [length]; lia). apply striptrail_cr; auto.
      * apply Forall_map, Forall_forall. intros p _. apply andb_true_iff. split; [reflexivity|]. apply Nat.ltb_lt. litc. cbn [app length]. rewrite app_length. cbn [length]. lia.
      * eapply Forall_impl; [|exact B1]. cbn. intros l [_ ->]. reflexivity.
      * eapply Forall_impl; [|exact C2]. cbn. intros l ->. reflexivity.
    + assert (Ef : filter seenbyb (cl ++ sbl ++ pal) = sbl).
      { rewrite !filter_app. rewrite (filter_none' _ cl) by exact C1. rewrite (filter_none' _ pal) by (eapply Forall_impl; [|exact P1]; cbn; tauto). rewrite filter_all' by (eapply Forall_impl; [|exact B1]; cbn; tauto). cbn [app]. apply app_nil_r. }
      rewrite Ef in Hs. assert (Es : forall g l, Forall (fun g => sbline (fst g) (snd g) /\ (length (snd g) <= 77)%nat /\ pairs_ok (fst g)) g -> fold_left (fun o l => obind o (AddSeenby (skipn 9 l))) (map (fun g : list node2d * list Z => snd g ++ [13]) g) (Some l) = Some (addall (concat (map fst g)) l)).
      { clear. induction g as [|g0 g IH]; intros l F; [reflexivity|]. inversion F as [|? ? (G1 & _ & G2) F']; subst. cbn [map fold_left obind concat]. rewrite (sbline_parse _ _ l G1 G2). rewrite IH by auto. unfold addall. rewrite fold_left_app. reflexivity. }
      unfold sbl in Hs. rewrite Es in Hs by auto. injection Hs as <-. intros y Hy. rewrite addall_in. cbn [entries]. rewrite <- (Hent y Hy). cbn. tauto.
Qed.
