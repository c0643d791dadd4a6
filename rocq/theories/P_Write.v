(** CrashWrite: lemmas. *)
From Verif Require Import Base M_Node4D S_Node4D P_Node4D M_Mem S_Mem P_Mem M_Cfg M_Pkt S_Pkt P_Pkt M_Str S_Str P_Str M_Fs P_Fs M_Args M_Main M_Out P_Out M_Date S_Date P_Date M_Write S_Write.
Require Import Verif.T_Pkt Verif.P_Net.

(** ** The headers *)
Lemma word16 v : [u16 v mod 256; u16 v / 256] = le16 v.
Proof.
  unfold u16, le16. f_equal; [|f_equal]; Z.to_euclidean_division_equations; lia.
Qed.
Lemma putword b o v : putuword b o v = put b o (le16 v).
Proof. unfold putuword. rewrite word16. reflexivity. Qed.
Lemma strncpy8_eq s : strncpy8 s = pwfield (firstn 8 s).
Proof.
  unfold strncpy8, pwfield. rewrite firstn_firstn, Nat.min_id. rewrite firstn_app. f_equal. rewrite firstn_length.
  replace (8 - Nat.min 8 (length s))%nat with (8 - length s)%nat by lia. assert (8 - length s <= 8)%nat by lia.
  generalize dependent (8 - length s)%nat. intros k Hk. do 9 (destruct k as [|k]; [reflexivity|]). lia.
Qed.
Lemma strncpy8_length s : length (strncpy8 s) = 8%nat.
Proof. unfold strncpy8. rewrite firstn_length, app_length, repeat_length. lia. Qed.
Lemma pwfield_nil : pwfield [] = [0; 0; 0; 0; 0; 0; 0; 0].
Proof. reflexivity. Qed.
Definition tmof (tp : tm) := (tm_year tp + 1900, tm_mon tp, tm_mday tp, tm_hour tp, tm_min tp, tm_sec tp).
Lemma pkthdr_eq tp o d pw : cw_pkthdr tp o d pw = mkheader (tmof tp) o d (match pw with Some w => firstn 8 w | None => [] end).
Proof.
  unfold cw_pkthdr. rewrite !putword. unfold mkheader, tmof. destruct pw as [w|].
  - rewrite <- strncpy8_eq. pose proof (strncpy8_length w) as Hl. destruct (strncpy8 w) as [|a1 [|a2 [|a3 [|a4 [|a5 [|a6 [|a7 [|a8 [|? ?]]]]]]]]]; try discriminate Hl.
    cbv [put firstn skipn app length repeat Nat.add le16]. reflexivity.
  - rewrite pwfield_nil. cbv [put firstn skipn app length repeat Nat.add le16]. reflexivity.
Qed.
Lemma msghdr_eq o d a : cw_msghdr o d a = le16 2 ++ le16 (node o) ++ le16 (node d) ++ le16 (net o) ++ le16 (net d) ++ le16 a ++ le16 0.
Proof. unfold cw_msghdr. rewrite !putword. cbv [put firstn skipn app length repeat Nat.add le16]. reflexivity. Qed.

(** ** The strings *)
Lemma string_eq ds j dflt n : (1 <= n)%nat -> cstring (says ds j dflt) -> cw_string ds j dflt n = Some (firstn (n - 1) (says ds j dflt)).
Proof.
  intros Hn Hc. unfold cw_string. fold (says ds j dflt). destruct (mystrncpy_full (repeat 0 n) (says ds j dflt) n) as (b & E & (_ & _ & Hb) & _); auto; [apply repeat_length|].
  rewrite E. cbn [option_map]. rewrite Hb. reflexivity.
Qed.
Lemma field_firstn n s : cstring s -> field n (firstn n s).
Proof. intros H. split; [apply cstring_nonul, cstring_firstn; auto|]. rewrite firstn_length. lia. Qed.
Lemma standard_length x : fields x -> length (standard x) = 19%nat.
Proof.
  intros (_ & _ & _ & _ & Hm). unfold standard, two, month3. rewrite !app_length. cbn [length].
  assert (Hk : (Z.to_nat (tm_mon x) < 12)%nat) by lia. generalize dependent (Z.to_nat (tm_mon x)). intros k Hk.
  do 12 (destruct k as [|k]; [reflexivity|]). lia.
Qed.
Lemma two_cstring z : 0 <= z < 100 -> cstring (two z).
Proof. intros H. unfold two, cstring. assert (0 <= z / 10 < 10) by (Z.to_euclidean_division_equations; lia). pose proof (Z.mod_pos_bound z 10 ltac:(lia)). repeat constructor; lia. Qed.
Lemma standard_cstring x : fields x -> cstring (standard x).
Proof.
  intros (H1 & H2 & H3 & H4 & Hm). unfold standard. pose proof (Z.mod_pos_bound (tm_year x) 100 ltac:(lia)).
  repeat (apply cstring_app; split); try (apply two_cstring; lia); try (unfold cstring; cbn; repeat (apply Forall_cons; [lia|]); constructor).
  unfold month3. assert (Hk : (Z.to_nat (tm_mon x) < 12)%nat) by lia. generalize dependent (Z.to_nat (tm_mon x)). intros k Hk.
  do 12 (destruct k as [|k]; [unfold cstring; cbn; repeat (apply Forall_cons; [lia|]); constructor|]). lia.
Qed.

(** ** The text *)
Lemma fgets_part l : forall n r, ~ In 10 l -> length l = n -> fgets n (l ++ r) = (l, r).
Proof.
  induction l as [|c l IH]; intros n r Hl Hn; (destruct n as [|n]; cbn [length] in Hn; try lia); cbn [app fgets]; [reflexivity|].
  destruct (Z.eqb_spec c 10) as [->|E]; [exfalso; apply Hl; left; auto|]. rewrite IH; [reflexivity| |lia]. intros H; apply Hl; right; auto.
Qed.
Definition lf2cr (c : Z) : Z := if c =? 10 then 13 else c.
Lemma lf2cr_id l : ~ In 10 l -> map lf2cr l = l.
Proof. induction l as [|c l IH]; intros H; [reflexivity|]. cbn [map]. rewrite IH by (intros Hx; apply H; right; auto). unfold lf2cr. destruct (Z.eqb_spec c 10) as [->|]; [exfalso; apply H; left; auto|reflexivity]. Qed.
Lemma crlf_end l : crlf (l ++ [13; 10]) = l ++ [10].
Proof. unfold crlf. rewrite rev_app_distr. cbn [rev app]. change ((10 =? 10) && (13 =? 13)) with true. cbv iota. rewrite rev_involutive. reflexivity. Qed.
Lemma crlf_lfend l : ~ In 13 l -> crlf (l ++ [10]) = l ++ [10].
Proof.
  intros H. unfold crlf. rewrite rev_app_distr. cbn [rev app]. destruct (rev l) as [|b r] eqn:E; [reflexivity|].
  destruct (Z.eqb_spec b 13) as [->|]; [|rewrite andb_false_r; reflexivity]. exfalso. apply H. apply in_rev. rewrite E. left; auto.
Qed.
Lemma crlf_nolf l : ~ In 10 l -> crlf l = l.
Proof.
  intros H. unfold crlf. destruct (rev l) as [|a [|b r]] eqn:E; try reflexivity. destruct (Z.eqb_spec a 10) as [->|]; [|reflexivity].
  exfalso. apply H. apply in_rev. rewrite E. left; auto.
Qed.
(** a line that ends with e *)
Lemma osFGets_end l e r : cstring l -> ~ In 10 l -> (e = [10] /\ ~ In 13 l \/ e = [13; 10]) -> (length (l ++ e) <= 99)%nat -> osFGets 100 (l ++ e ++ r) = Some (l ++ [10], r).
Proof.
  intros Hc H10 He Hl. destruct He as [[-> H13]| ->].
  - cbn [app]. rewrite osFGets_line; auto; [|apply cstring_nonul; auto|rewrite app_length in Hl; cbn in Hl; lia]. rewrite crlf_lfend by auto. reflexivity.
  - replace (l ++ [13; 10] ++ r) with ((l ++ [13]) ++ 10 :: r) by (rewrite <- app_assoc; reflexivity).
    rewrite osFGets_line.
    + rewrite <- app_assoc. cbn [app]. rewrite crlf_end. reflexivity.
    + intros H. apply in_app_or in H as [H|[H|[]]]; [auto|discriminate].
    + intros H. apply in_app_or in H as [H|[H|[]]]; [|discriminate]. revert H. apply cstring_nonul; auto.
    + rewrite app_length in *. cbn [length] in *. lia.
Qed.
Lemma osFGets_full l r : cstring l -> ~ In 10 l -> length l = 99%nat -> osFGets 100 (l ++ r) = Some (l, r).
Proof.
  intros Hc H10 Hl. unfold osFGets. destruct (l ++ r) as [|x y] eqn:E; [destruct l; [discriminate|discriminate]|]. rewrite <- E.
  change (100 - 1)%nat with 99%nat. rewrite fgets_part by auto. rewrite cstr_noz by (apply cstring_nonul; auto). rewrite crlf_nolf by auto.
  destruct l; [discriminate|reflexivity].
Qed.
Lemma text_line e : (e = [10] \/ e = [13; 10]) -> forall n l r fuel, (length l <= n)%nat -> cstring l -> ~ In 10 l -> ~ In 13 l ->
  (e = [13; 10] -> ((length l + 1) mod 99 <> 0)%nat) -> (length (l ++ e ++ r) <= fuel)%nat ->
  exists fuel', (length r <= fuel')%nat /\ cw_text fuel (l ++ e ++ r) = l ++ [13] ++ cw_text fuel' r.
Proof.
  intros He. induction n as [|n IH]; intros l r fuel Hn Hc H10 H13 Hm Hf.
  - destruct l; [|cbn in Hn; lia]. destruct fuel as [|fuel]; [destruct He as [-> | ->]; cbn in Hf; lia|]. exists fuel.
    split; [rewrite !app_length in Hf; destruct He as [-> | ->]; cbn in Hf; lia|]. cbn [cw_text].
    rewrite (osFGets_end [] e r Hc H10); [reflexivity|tauto|destruct He as [-> | ->]; cbn; lia].
  - destruct fuel as [|fuel]; [rewrite !app_length in Hf; destruct He as [-> | ->]; cbn in Hf; lia|].
    destruct (Nat.le_gt_cases (length (l ++ e)) 99) as [Hl|Hl].
    + exists fuel. split; [rewrite !app_length in Hf; destruct He as [-> | ->]; cbn in Hf; lia|]. cbn [cw_text].
      rewrite (osFGets_end l e r Hc H10); [|tauto|auto]. change (fun c : Z => if c =? 10 then 13 else c) with lf2cr. rewrite map_app, lf2cr_id by auto. rewrite <- app_assoc. reflexivity.
    + assert (H99 : (99 <= length l)%nat).
      { rewrite app_length in Hl. destruct He as [-> | ->]; cbn [length] in Hl; [lia|].
        destruct (Nat.eq_dec (length l) 98) as [E|]; [|lia]. exfalso. apply Hm; auto. rewrite E. reflexivity. }
      assert (El : l = firstn 99 l ++ skipn 99 l) by (symmetry; apply firstn_skipn).
      assert (Hl1 : length (firstn 99 l) = 99%nat) by (rewrite firstn_length; lia).
      assert (Hc1 : cstring (firstn 99 l) /\ cstring (skipn 99 l)) by (apply cstring_app; rewrite <- El; auto).
      assert (Hi : forall x, ~ In x l -> ~ In x (firstn 99 l) /\ ~ In x (skipn 99 l)) by (intros x Hx; split; intros Hy; apply Hx; rewrite El; apply in_or_app; auto).
      destruct (IH (skipn 99 l) r fuel) as (fuel' & Hf' & E').
      * rewrite skipn_length. lia.
      * apply Hc1.
      * apply Hi; auto.
      * apply Hi; auto.
      * intros Ee. specialize (Hm Ee). rewrite skipn_length. replace (length l - 99 + 1)%nat with ((length l + 1) - 99)%nat by lia. intros Hx. apply Hm.
        replace (length l + 1)%nat with ((length l + 1 - 99) + 1 * 99)%nat by lia. rewrite Nat.mod_add by lia. exact Hx.
      * rewrite app_length in *. rewrite skipn_length. lia.
      * exists fuel'. split; auto. cbn [cw_text]. rewrite El at 1. rewrite <- app_assoc. rewrite osFGets_full; [|apply Hc1|apply Hi; auto|auto].
        change (fun c : Z => if c =? 10 then 13 else c) with lf2cr. rewrite lf2cr_id by (apply Hi; auto). rewrite E'. rewrite app_assoc, <- El. reflexivity.
Qed.
Lemma text_eq s ls : textfile s ls -> forall fuel, (length s <= fuel)%nat -> cw_text fuel s = inmsg ls.
Proof.
  induction 1 as [|l s ls Hc H10 H13 Ht IH|l s ls Hc H10 H13 Hm Ht IH]; intros fuel Hf.
  - destruct fuel; reflexivity.
  - destruct (text_line [10] (or_introl eq_refl) (length l) l s fuel) as (f' & Hf' & E); auto; [discriminate|].
    change (l ++ 10 :: s) with (l ++ [10] ++ s). rewrite E, IH by auto. unfold inmsg. cbn [map concat]. rewrite <- app_assoc. reflexivity.
  - destruct (text_line [13; 10] (or_intror eq_refl) (length l) l s fuel) as (f' & Hf' & E); auto.
    change (l ++ 13 :: 10 :: s) with (l ++ [13; 10] ++ s). rewrite E, IH by auto. unfold inmsg. cbn [map concat]. rewrite <- app_assoc. reflexivity.
Qed.
Lemma inmsg_ok s ls : textfile s ls -> cstring (inmsg ls) /\ eoltext (inmsg ls).
Proof.
  intros H. split; [|apply eol_lines]. induction H as [|l s ls Hc _ _ _ IH|l s ls Hc _ _ _ _ IH]; [constructor| |];
    (change (cstring ((l ++ [13]) ++ inmsg ls)); apply cstring_app; split; [apply cstring_app; split; [auto|repeat constructor; lia]|auto]).
Qed.

(** ** A packet with one message *)
Lemma one_reads S cfg (handle : S -> memmsg -> S * bool) junk tm o d pw b (P : memmsg -> Prop) st :
  valid4d o -> valid4d d -> zone o <> 0 -> zone d <> 0 -> ~ (net o = 65535 /\ point o <> 0) -> ~ In 0 pw -> (length pw <= 8)%nat -> length junk = 14%nat ->
  (forall c, In c (pc_cnodes cfg) -> Compare4D (cn_node c) o = 0 -> pw_accepted cfg (Some c) pw) ->
  (flag (pc_flags cfg) CFG_CHECKPKTDEST = false \/ pc_nosecurity cfg = true \/ exists a, In a (pc_akas cfg) /\ Compare4D (ak_node a) d = 0) ->
  (forall cn h, (forall mm, wrongpw cfg cn h mm = false) -> exists m, reads cfg handle cn h o d b m /\ P m) ->
  exists m, P m /\ ReadPkt cfg handle (fun _ => false) junk (mkheader tm o d pw ++ b ++ [0; 0]) st = deliver handle st [m].
Proof.
  intros Ho Hd Hzo Hzd Hn H0 Hl Hj Hpw Hck Hr.
  rewrite ReadPkt_mk by auto. set (cn := findnode cn_node o (pc_cnodes cfg)).
  assert (Hw : forall mm, wrongpw cfg cn (mkheader tm o d pw) mm = false).
  { intros mm. apply wrongpw_accepted; auto. destruct cn as [c|] eqn:Ec; [|exact I]. apply findnode_in in Ec as [H1 H2]. apply Hpw; auto. }
  assert (Hd0 : flag (pc_flags cfg) CFG_CHECKPKTDEST && negb (pc_nosecurity cfg) &&
     match findnode ak_node d (pc_akas cfg) with None => true | Some _ => false end = false).
  { destruct Hck as [-> | [-> |(a & Ha & Hc)]]; auto; [rewrite andb_false_r; auto|].
    destruct (findnode ak_node d (pc_akas cfg)) eqn:Ef; [rewrite andb_false_r; auto|].
    unfold findnode in Ef. eapply find_none in Ef; [|exact Ha]. cbn in Ef. rewrite Hc in Ef. discriminate. }
  rewrite Hd0. destruct (Nat.ltb_spec (length (firstn 14 (b ++ [0; 0]))) 2) as [Hlt|_].
  { rewrite firstn_length, app_length in Hlt. cbn [length] in Hlt. lia. }
  destruct (Hr cn (mkheader tm o d pw) Hw) as (m & Hr' & HP). exists m. split; [exact HP|].
  assert (Hr2 : Forall2 (reads cfg handle cn (mkheader tm o d pw) o d) [b] [m]) by (constructor; [exact Hr'|constructor]).
  replace (b ++ [0; 0]) with (concat [b] ++ [0; 0]) by (cbn [concat]; rewrite app_nil_r; reflexivity).
  apply readmsgs_deliver; auto. rewrite app_length. cbn [length]. lia.
Qed.

(** ** Lines of the text *)
Lemma pieces_first l t : l <> [] -> Forall (fun c => c <> 13 /\ c <> 10) l -> (length l < 198)%nat -> pieces (l ++ [13] ++ t) = (l ++ [13]) :: pieces t.
Proof. intros H1 H2 H3. rewrite app_assoc, pieces_app by (right; eauto). rewrite pieces_line by auto. reflexivity. Qed.
Lemma pieces_no1 t : ~ In 1 t -> Forall (fun l => forall r, l <> 1 :: r) (pieces t).
Proof.
  intros H. apply Forall_forall. intros l Hl r ->. apply H. rewrite <- (pieces_concat t). apply in_concat. exists (1 :: r). split; auto. left; auto.
Qed.
Lemma addr_line n : valid4d n -> Forall (fun c => c <> 13 /\ c <> 10) (three n) /\ (length (three n) <= 17)%nat /\ cstring (three n).
Proof.
  intros H. destruct (addr3_chars n H) as [H1 H2]. split; [|split; [exact H2|]].
  - eapply Forall_impl; [|exact H1]. unfold digit. cbv beta. intros; lia.
  - eapply Forall_impl; [|exact H1]. unfold digit. cbv beta. intros; lia.
Qed.
Lemma dec_line z : is_u16 z -> Forall (fun c => c <> 13 /\ c <> 10) (dec z) /\ (length (dec z) <= 5)%nat /\ cstring (dec z).
Proof.
  intros H. assert (0 <= z) by apply H. pose proof (dec_digits z H0) as H1. split; [|split; [apply dec_length_u16; auto|]].
  - eapply Forall_impl; [|exact H1]. unfold digit. cbv beta. intros; lia.
  - eapply Forall_impl; [|exact H1]. unfold digit. cbv beta. intros; lia.
Qed.
Lemma hex_line n z : Forall (fun c => c <> 13 /\ c <> 10) (hex n z) /\ cstring (hex n z).
Proof. split; (eapply Forall_impl; [|apply (hex_chars n z)]; cbv beta; intros; lia). Qed.
Lemma four_line n : valid4d n -> Forall (fun c => c <> 13 /\ c <> 10) (four n) /\ (length (four n) <= 23)%nat /\ cstring (four n).
Proof.
  intros H. destruct (addr_line n H) as (A1 & A2 & A3). destruct (dec_line (point n) (proj2 (proj2 (proj2 H)))) as (B1 & B2 & B3). unfold four. split; [|split].
  - apply Forall_app; split; auto. apply Forall_app; split; auto. change (lit ".") with [46]. constructor; [lia|constructor].
  - rewrite !app_length. change (length (lit ".")) with 1%nat. lia.
  - apply cstring_app; split; auto. apply cstring_app; split; auto. change (lit ".") with [46]. constructor; [lia|constructor].
Qed.
Ltac lineok := repeat first [apply Forall_app; split | apply Forall_cons; [lia|]]; auto; try (cbn; repeat (apply Forall_cons; [lia|]); constructor).

Section Net.
  Variables (po pd : node4d) (to fr su date : list Z) (attr fl : Z).
  (** a netmail under construction *)
  Definition nmsg (o d : node4d) (mid : list Z) (cs : list (list Z)) : memmsg :=
    MM o d po pd null4d [] to fr su date mid [] attr 0 0 fl cs [] [].
  Definition step (m : memmsg) (ls : list (list Z)) (o d : node4d) (mid : list Z) : Prop :=
    exists cs, addlines m ls = Some (nmsg o d mid cs) /\ chunks_ok cs /\ concat (rev cs) = mmtext m ++ concat ls.
  Lemma step_none o d mid cs : chunks_ok cs -> step (nmsg o d mid cs) [] o d mid.
  Proof using Type. intros H. exists cs. cbn. rewrite app_nil_r. auto. Qed.
  Lemma step_kludge o d mid cs k o' d' mid' : chunks_ok cs -> ProcessKludge (nmsg o d mid cs) (1 :: k) = Some (nmsg o' d' mid' cs) -> step (nmsg o d mid cs) [1 :: k] o' d' mid'.
  Proof using Type.
    intros Hc Hk. destruct (netline_kludge (nmsg o d mid cs) k _ eq_refl Hc Hk) as (cs' & E & H1 & H2). exists cs'.
    cbn [addlines]. rewrite E. split; [reflexivity|]. split; auto. cbn [concat]. rewrite app_nil_r. exact H2.
  Qed.
  Lemma step_fmpt o d mid cs p : chunks_ok cs -> is_u16 p -> point o = 0 ->
    step (nmsg o d mid cs) (if p =? 0 then [] else [1 :: lit "FMPT " ++ dec p ++ [13]]) (set_point o p) d mid.
  Proof using Type.
    intros Hc Hp Ho. destruct (Z.eqb_spec p 0) as [->|Hp0].
    - replace (set_point o 0) with o by (destruct o; cbn in Ho; subst; reflexivity). apply step_none; auto.
    - apply step_kludge; auto. apply (pk_fmpt_line (nmsg o d mid cs) p [13]); auto.
  Qed.
  Lemma step_topt o d mid cs p : chunks_ok cs -> is_u16 p -> point d = 0 ->
    step (nmsg o d mid cs) (if p =? 0 then [] else [1 :: lit "TOPT " ++ dec p ++ [13]]) o (set_point d p) mid.
  Proof using Type.
    intros Hc Hp Ho. destruct (Z.eqb_spec p 0) as [->|Hp0].
    - replace (set_point d 0) with d by (destruct d; cbn in Ho; subst; reflexivity). apply step_none; auto.
    - apply step_kludge; auto. apply (pk_topt_line (nmsg o d mid cs) p [13]); auto.
  Qed.
  Lemma step_intl o d mid cs from to' : chunks_ok cs -> valid4d from -> valid4d to' ->
    step (nmsg o d mid cs) [1 :: lit "INTL " ++ three to' ++ lit " " ++ three from ++ [13]] (set_point from (point o)) (set_point to' (point d)) mid.
  Proof using Type. intros Hc Hf Ht. apply step_kludge; auto. apply (pk_intl_line (nmsg o d mid cs) from to'); auto. Qed.
  Lemma step_app m l1 l2 o1 d1 mid1 o2 d2 mid2 : step m l1 o1 d1 mid1 -> (forall cs, chunks_ok cs -> step (nmsg o1 d1 mid1 cs) l2 o2 d2 mid2) -> step m (l1 ++ l2) o2 d2 mid2.
  Proof using Type.
    intros (c1 & E1 & H1 & T1) H. destruct (H c1 H1) as (c2 & E2 & H2 & T2). exists c2. rewrite addlines_app, E1. cbn [obind]. split; [exact E2|]. split; auto.
    rewrite T2. change (mmtext (nmsg o1 d1 mid1 c1)) with (concat (rev c1)). rewrite T1, <- app_assoc, concat_app. reflexivity.
  Qed.
  Lemma step_plain o d mid ls : forall cs, chunks_ok cs -> Forall (fun l => forall r, l <> 1 :: r) ls -> step (nmsg o d mid cs) ls o d mid.
  Proof using Type.
    induction ls as [|l ls IH]; intros cs Hc Hl; [apply step_none; auto|]. inversion Hl as [|? ? H1 H2]; subst.
    change (l :: ls) with ([l] ++ ls). apply (step_app _ [l] ls o d mid); [|intros; apply IH; auto].
    destruct (netline_text (nmsg o d mid cs) l eq_refl Hc H1) as (c' & E & H3 & H4). exists c'. cbn [addlines concat]. rewrite E, app_nil_r. auto.
  Qed.
End Net.
Lemma pk_msgid_line m s : Forall (fun c => c <> 13) s -> (length s < 79)%nat -> ProcessKludge m (1 :: lit "MSGID: " ++ s ++ [13]) = Some (set_MSGID m s).
Proof.
  intros Hs Hl. unfold ProcessKludge, pk_rescanned, pk_msgid, pk_reply.
  change (prefixb (SOH ++ lit "RESCANNED") (1 :: lit "MSGID: " ++ s ++ [13])) with false.
  change (prefixb (SOH ++ lit "MSGID:") (1 :: lit "MSGID: " ++ s ++ [13])) with true.
  change (prefixb (SOH ++ lit "REPLY:") (1 :: lit "MSGID: " ++ s ++ [13])) with false.
  cbv iota. change (from (1 :: lit "MSGID: " ++ s ++ [13]) 8) with (Some (s ++ [13])). cbn [option_map obind].
  rewrite takeuntil_app; auto.
  2:{ eapply Forall_impl; [|exact Hs]. cbv beta. intros c Hc. apply Z.eqb_neq. auto. }
  cbn [fst]. destruct m as [? ? ? ? ? a ? ? ? ? ? ? ? ? ? ? ? ? ?]. cbn. destruct a; [|reflexivity].
  unfold pk_fmpt, pk_topt, pk_intl.
  change (prefixb (SOH ++ lit "FMPT") (1 :: lit "MSGID: " ++ s ++ [13])) with false.
  change (prefixb (SOH ++ lit "TOPT") (1 :: lit "MSGID: " ++ s ++ [13])) with false.
  change (prefixb (SOH ++ lit "INTL") (1 :: lit "MSGID: " ++ s ++ [13])) with false. reflexivity.
Qed.

(** ** The message *)
Lemma msgidline_eq ds from num : msgidline ds from num =
  if given ds CW_NOMSGID then [] else 1 :: lit "MSGID: " ++ dec (zone from) ++ lit ":" ++ dec (net from) ++ lit "/" ++ dec (node from) ++ lit "." ++ dec (point from) ++ lit " " ++ hex 8 num ++ [13].
Proof. unfold msgidline, four, three. destruct (given ds CW_NOMSGID); [reflexivity|]. rewrite <- !app_assoc. reflexivity. Qed.
Definition mid_of (ds : adata) (from : node4d) (num : Z) : list Z := if given ds CW_NOMSGID then [] else four from ++ lit " " ++ hex 8 num.
Definition msgidlines (ds : adata) (from : node4d) (num : Z) : list (list Z) := if given ds CW_NOMSGID then [] else [1 :: lit "MSGID: " ++ (four from ++ lit " " ++ hex 8 num) ++ [13]].
Lemma msgidlines_eq ds from num : concat (msgidlines ds from num) = msgidline ds from num.
Proof. unfold msgidlines, msgidline. destruct (given ds CW_NOMSGID); [reflexivity|]. cbn [concat]. rewrite app_nil_r, <- !app_assoc. reflexivity. Qed.
Lemma idtext_ok from num : valid4d from -> Forall (fun c => c <> 13 /\ c <> 10) (four from ++ lit " " ++ hex 8 num) /\ (length (four from ++ lit " " ++ hex 8 num) <= 32)%nat /\ cstring (four from ++ lit " " ++ hex 8 num).
Proof.
  intros H. destruct (four_line from H) as (A1 & A2 & A3). destruct (hex_line 8 num) as [B1 B2]. change (lit " ") with [32]. split; [|split].
  - apply Forall_app; split; auto. apply Forall_app; split; auto. constructor; [lia|constructor].
  - rewrite !app_length, hex_length. cbn [length]. lia.
  - apply cstring_app; split; auto. apply cstring_app; split; auto. constructor; [lia|constructor].
Qed.
Lemma kline_ok k s : cstring k -> Forall (fun c => c <> 13 /\ c <> 10) k -> cstring s -> Forall (fun c => c <> 13 /\ c <> 10) s -> (length k + length s < 190)%nat ->
  cstring (1 :: k ++ s ++ [13]) /\ forall t, pieces ((1 :: k ++ s ++ [13]) ++ t) = (1 :: k ++ s ++ [13]) :: pieces t.
Proof.
  intros H1 H2 H3 H4 Hl. split.
  - constructor; [lia|]. apply cstring_app; split; auto. apply cstring_app; split; auto. constructor; [lia|constructor].
  - intros t. replace ((1 :: k ++ s ++ [13]) ++ t) with ((1 :: k ++ s) ++ [13] ++ t) by (cbn [app]; rewrite <- !app_assoc; reflexivity).
    rewrite pieces_first; [|discriminate| |cbn [length]; rewrite app_length; lia].
    + cbn [app]. rewrite <- app_assoc. reflexivity.
    + constructor; [lia|]. apply Forall_app; auto.
Qed.
Lemma msgid_pieces ds from num : valid4d from -> cstring (msgidline ds from num) /\ forall t, pieces (msgidline ds from num ++ t) = msgidlines ds from num ++ pieces t.
Proof.
  intros H. rewrite <- msgidlines_eq. unfold msgidlines. destruct (given ds CW_NOMSGID); [split; [constructor|reflexivity]|]. cbn [concat]. rewrite app_nil_r.
  destruct (idtext_ok from num H) as (A1 & A2 & A3).
  destruct (kline_ok (lit "MSGID: ") (four from ++ lit " " ++ hex 8 num)) as [B1 B2]; auto.
  - unfold cstring; cbn; repeat (apply Forall_cons; [lia|]); constructor.
  - cbn; repeat (apply Forall_cons; [lia|]); constructor.
  - change (length (lit "MSGID: ")) with 7%nat. lia.
Qed.
Lemma opt_kludge b k p : cstring k -> Forall (fun c => c <> 13 /\ c <> 10) k -> (length k < 20)%nat -> is_u16 p ->
  cstring (if b : bool then [] else 1 :: k ++ dec p ++ [13]) /\
  forall t, pieces ((if b then [] else 1 :: k ++ dec p ++ [13]) ++ t) = (if b then [] else [1 :: k ++ dec p ++ [13]]) ++ pieces t.
Proof.
  intros H1 H2 Hl Hp. destruct b; [split; [constructor|reflexivity]|]. destruct (dec_line p Hp) as (A1 & A2 & A3). destruct (kline_ok k (dec p)) as [B1 B2]; auto. lia.
Qed.
Lemma attr_bits ds : is_u16 (cw_attr ds) /\ flag (cw_attr ds) 16 = given ds CW_FILEATTACH /\ flag (cw_attr ds) 1 = negb (given ds CW_AREA) /\
  (forall b, Z.testbit (cw_attr ds) b = true -> b = 0 \/ b = 4).
Proof.
  unfold cw_attr. assert (Hb : forall z b, (z = 0 \/ z = 1 \/ z = 16 \/ z = 17) -> Z.testbit z b = true -> b = 0 \/ b = 4).
  { intros z b Hz H. destruct (Z.lt_ge_cases b 0); [rewrite Z.testbit_neg_r in H by lia; discriminate|]. destruct (Z.lt_ge_cases b 5) as [H5|H5].
    - assert (b = 0 \/ b = 1 \/ b = 2 \/ b = 3 \/ b = 4) as [-> |[-> |[-> |[-> | ->]]]] by lia; auto; destruct Hz as [-> |[-> |[-> | ->]]]; discriminate.
    - exfalso. assert (Z.testbit z b = false); [|congruence]. apply Z.bits_above_log2; [lia|]. destruct Hz as [-> |[-> |[-> | ->]]]; match goal with |- Z.log2 ?x < _ => let v := eval vm_compute in (Z.log2 x) in change (Z.log2 x) with v end; lia. }
  destruct (given ds CW_AREA), (given ds CW_FILEATTACH); cbn [Z.lor Pos.lor negb]; (split; [unfold is_u16; lia|]); (split; [reflexivity|]); (split; [reflexivity|]);
    intros b; apply Hb; auto.
Qed.
Section Msg.
  Context {S : Type} (cfg : pktcfg) (handle : S -> memmsg -> S * bool) (cn : option cnode) (h : list Z) (po pd : node4d).
  Hypothesis Hpw : forall mm, wrongpw cfg cn h mm = false.
  Variables (ds : adata) (from to : node4d) (num : Z) (date : list Z).
  Hypotheses (Hfrom : valid4d from) (Hto : valid4d to) (Hdate : field 19 date).
  Hypothesis Hsays : forall j d, cstring d -> cstring (says ds j d).
  Definition strs := (firstn 35 (says ds CW_TONAME (lit "All")), firstn 35 (says ds CW_FROMNAME (lit "CrashWrite")), firstn 71 (says ds CW_SUBJECT (lit "Information"))).
  Definition hmsg : memmsg := MM from to null4d null4d null4d [] (fst (fst strs)) (snd (fst strs)) (snd strs) date [] [] (cw_attr ds) 0 0 0 [] [] [].
  Lemma hmsg_ok : hdr_ok hmsg.
  Proof using Hfrom Hto Hdate Hsays.
    unfold hdr_ok, hmsg, strs. cbn [DateTime To From Subject Attr Cost OrigNode DestNode fst snd]. destruct (attr_bits ds) as [Ha _].
    split; [exact Hdate|]. do 3 (split; [apply field_firstn, Hsays; unfold cstring; cbn; repeat (apply Forall_cons; [lia|]); constructor|]).
    split; [exact Ha|]. split; [unfold is_u16; lia|]. auto.
  Qed.
  Lemma hmsg_bytes s : cw_msghdr from to (cw_attr ds) ++ date ++ [0] ++ fst (fst strs) ++ [0] ++ snd (fst strs) ++ [0] ++ snd strs ++ [0] ++ s = msgheader hmsg ++ s.
  Proof using Type. rewrite msgheader_split, msghdr_eq. reflexivity. Qed.
  Definition base (fl : Z) : memmsg := nmsg po pd (fst (fst strs)) (snd (fst strs)) (snd strs) date (cw_attr ds) fl (N4 0 (net from) (node from) 0) (N4 (zone po) (net to) (node to) 0) [] [].
  Lemma hmsg_init : set_Subject (set_From (set_To (set_DateTime (msg_init cfg po pd (head14 hmsg)) (DateTime hmsg)) (To hmsg)) (From hmsg)) (Subject hmsg) =
    base (if pc_nosecurity cfg then MMFLAG_NOSECURITY else 0).
  Proof using Hfrom Hto Hdate Hsays. rewrite (head14_fields cfg po pd hmsg hmsg_ok). reflexivity. Qed.
  Lemma head_ok m : From m = snd (fst strs) -> To m = fst (fst strs) -> Subject m = snd strs -> DateTime m = date -> Cost m = 0 -> REPLY m = [] -> Attr m = cw_attr ds -> MSGID m = mid_of ds from num ->
    heading ds date from num m.
  Proof using Type.
    intros E1 E2 E3 E4 E5 E6 E7 E8. destruct (attr_bits ds) as (A1 & A2 & A3 & A4). unfold heading. rewrite E1, E2, E3, E7, E8. repeat (split; [auto; fail|]). reflexivity.
  Qed.

  Lemma letter_reads ls s : given ds CW_AREA = false -> textfile s ls -> ~ In 1 (inmsg ls) ->
    exists m, reads cfg handle cn h po pd (cw_msghdr from to (cw_attr ds) ++ date ++ [0] ++ fst (fst strs) ++ [0] ++ snd (fst strs) ++ [0] ++ snd strs ++ [0] ++
      cw_kludges ds from to num ++ inmsg ls ++ [0]) m /\ letter ds date from to num ls m /\ PktOrig m = po /\ PktDest m = pd.
  Proof using Hpw Hfrom Hto Hdate Hsays.
    intros HA Ht H1. destruct (inmsg_ok _ _ Ht) as [Hc He].
    set (fm := if point from =? 0 then [] else 1 :: lit "FMPT " ++ dec (point from) ++ [13]).
    set (tp := if point to =? 0 then [] else 1 :: lit "TOPT " ++ dec (point to) ++ [13]).
    set (il := 1 :: lit "INTL " ++ (three to ++ lit " " ++ three from) ++ [13]).
    assert (EK : cw_kludges ds from to num ++ inmsg ls ++ [0] = (fm ++ tp ++ il ++ msgidline ds from num ++ inmsg ls) ++ [0]).
    { unfold cw_kludges. rewrite HA, <- msgidline_eq. unfold il, three, fm, tp. repeat (rewrite <- !app_assoc; cbn [app]). reflexivity. }
    rewrite EK, hmsg_bytes. clear EK. set (t := fm ++ tp ++ il ++ msgidline ds from num ++ inmsg ls).
    destruct (opt_kludge (point from =? 0) (lit "FMPT ") (point from)) as [F1 F2]; [unfold cstring; cbn; repeat (apply Forall_cons; [lia|]); constructor|cbn; repeat (apply Forall_cons; [lia|]); constructor|cbn; lia|apply Hfrom|].
    destruct (opt_kludge (point to =? 0) (lit "TOPT ") (point to)) as [G1 G2]; [unfold cstring; cbn; repeat (apply Forall_cons; [lia|]); constructor|cbn; repeat (apply Forall_cons; [lia|]); constructor|cbn; lia|apply Hto|].
    fold fm in F1, F2. fold tp in G1, G2.
    destruct (addr_line from Hfrom) as (A1 & A2 & A3). destruct (addr_line to Hto) as (B1 & B2 & B3).
    destruct (kline_ok (lit "INTL ") (three to ++ lit " " ++ three from)) as [I1 I2];
      [unfold cstring; cbn; repeat (apply Forall_cons; [lia|]); constructor|cbn; repeat (apply Forall_cons; [lia|]); constructor| | | |].
    { apply cstring_app; split; auto. apply cstring_app; split; auto. change (lit " ") with [32]. constructor; [lia|constructor]. }
    { apply Forall_app; split; auto. apply Forall_app; split; auto. change (lit " ") with [32]. constructor; [lia|constructor]. }
    { rewrite !app_length. change (length (lit "INTL ")) with 5%nat. change (length (lit " ")) with 1%nat. lia. }
    fold il in I1, I2.
    destruct (msgid_pieces ds from num Hfrom) as [M1 M2].
    assert (Hct : cstring t) by (unfold t; repeat (apply cstring_app; split; [assumption|]); exact Hc).
    assert (Eil : eoltext il) by (right; exists (1 :: lit "INTL " ++ (three to ++ lit " " ++ three from)), 13; split; [unfold il; cbn [app]; rewrite <- !app_assoc; reflexivity|auto]).
    assert (Hcr : eoltext (msgidline ds from num ++ inmsg ls)).
    { apply eol_app; auto. unfold msgidline. destruct (given ds CW_NOMSGID); [left; auto|right]. exists (1 :: lit "MSGID: " ++ four from ++ lit " " ++ hex 8 num), 13. split; [cbn [app]; rewrite <- !app_assoc; reflexivity|auto]. }
    assert (Het : eoltext t).
    { unfold t. replace (fm ++ tp ++ il ++ msgidline ds from num ++ inmsg ls) with ((fm ++ tp) ++ (il ++ msgidline ds from num ++ inmsg ls)) by (rewrite <- app_assoc; reflexivity).
      pose proof (eol_app _ _ Eil Hcr) as [E|(r & c & E & Hcc)]; [unfold il in E; discriminate|]. right. exists ((fm ++ tp) ++ r), c. rewrite E, app_assoc. auto. }
    assert (Hh : exists k, t = 1 :: k) by (unfold t, fm, tp, il; destruct (point from =? 0), (point to =? 0); cbn [app]; eauto).
    assert (HnA : ~ starts_with (lit "AREA:") t) by (destruct Hh as (k & ->); intros (r & Hr); discriminate).
    destruct (readbody_net cfg handle cn h Hpw (base (if pc_nosecurity cfg then MMFLAG_NOSECURITY else 0)) t) as (mm' & Hr & _ & _ & Ha); auto; [constructor|].
    specialize (Ha ltac:(destruct Hh as (k & ->); discriminate)).
    unfold t in Ha. rewrite F2, G2, I2, M2 in Ha.
    set (fl := if pc_nosecurity cfg then MMFLAG_NOSECURITY else 0) in *.
    assert (Hst : step po pd (fst (fst strs)) (snd (fst strs)) (snd strs) date (cw_attr ds) fl (base fl)
      ((if point from =? 0 then [] else [1 :: lit "FMPT " ++ dec (point from) ++ [13]]) ++ (if point to =? 0 then [] else [1 :: lit "TOPT " ++ dec (point to) ++ [13]]) ++
       [il] ++ msgidlines ds from num ++ pieces (inmsg ls)) from to (mid_of ds from num)).
    { eapply step_app; [apply step_fmpt; [constructor|apply Hfrom|reflexivity]|]. intros c1 Hc1.
      eapply step_app; [apply step_topt; [auto|apply Hto|reflexivity]|]. intros c2 Hc2.
      eapply step_app.
      { unfold il. rewrite <- (app_assoc (three to)), <- (app_assoc (lit " ")). apply step_intl; auto. }
      intros c3 Hc3. cbn [set_point point]. replace (set_point from (point from)) with from by (destruct from; reflexivity). replace (set_point to (point to)) with to by (destruct to; reflexivity).
      eapply step_app; [|intros c4 Hc4; apply step_plain; [auto|apply pieces_no1; auto]].
      unfold msgidlines, mid_of. destruct (given ds CW_NOMSGID); [apply step_none; auto|]. apply step_kludge; auto.
      destruct (idtext_ok from num Hfrom) as (D1 & D2 & D3). rewrite pk_msgid_line; [reflexivity| |lia]. eapply Forall_impl; [|exact D1]. cbv beta. tauto. }
    destruct Hst as (cs & Ecs & _ & Etx).
    assert (Emm : mm' = nmsg po pd (fst (fst strs)) (snd (fst strs)) (snd strs) date (cw_attr ds) fl from to (mid_of ds from num) cs).
    { pose proof (eq_trans (eq_sym Ha) Ecs) as E. congruence. }
    exists (tossed mm'). split; [|split; [|split; rewrite Emm; reflexivity]].
    - apply reads_msg; [exact Hpw|apply hmsg_ok|]. intros st rest. rewrite hmsg_init. fold fl. rewrite <- app_assoc. apply Hr.
    - rewrite Emm. split; [apply head_ok; reflexivity|]. do 5 (split; [reflexivity|]).
      change (mmtext (tossed (nmsg po pd (fst (fst strs)) (snd (fst strs)) (snd strs) date (cw_attr ds) fl from to (mid_of ds from num) cs))) with (concat (rev cs)).
      rewrite Etx. change (mmtext (base fl)) with (@nil Z). rewrite !concat_app, msgidlines_eq, pieces_concat. rewrite app_nil_l. f_equal; [destruct (point from =? 0); cbn [concat]; rewrite ?app_nil_r; reflexivity|].
      f_equal; [destruct (point to =? 0); cbn [concat]; rewrite ?app_nil_r; reflexivity|]. cbn [concat]. rewrite app_nil_r. unfold il. repeat (rewrite <- !app_assoc; cbn [app]). reflexivity.
  Qed.
  (** *** Echomail *)
  Definition emsg (fl : Z) (o4 : node4d) (mid : list Z) (cs : list (list Z)) : memmsg :=
    MM (N4 0 (net from) (node from) 0) (N4 (zone po) (net to) (node to) 0) po pd o4 (word ds CW_AREA) (fst (fst strs)) (snd (fst strs)) (snd strs) date mid [] (cw_attr ds) 0 0 fl cs [] [].
  Lemma eline fl o4 mid cs l : word ds CW_AREA <> [] -> chunks_ok cs -> crline l -> (forall r, l <> 1 :: r) -> ~ is_seenby_line l -> origin_ok l ->
    exists o4' cs', mmAddLine (emsg fl o4 mid cs) l = Some (emsg fl o4' mid cs') /\ chunks_ok cs' /\ concat (rev cs') = concat (rev cs) ++ l.
  Proof using Type.
    intros HA Hc Hl H1 Hs Ho. destruct (mmAddBuf_spec cs l Hc) as (cs' & E & T & Hc').
    unfold mmAddLine. change (Area (emsg fl o4 mid cs)) with (word ds CW_AREA). destruct (word ds CW_AREA) as [|a0 ar] eqn:EA; [congruence|]. cbn [andb].
    apply prefixb_false in Hs. rewrite Hs.
    assert (Hp : prefixb (SOH ++ lit "PATH:") l = false) by (apply prefixb_false; intros (r & Hr); apply (H1 (lit "PATH:" ++ r)); exact Hr).
    rewrite Hp. destruct (prefixb (lit " * Origin: ") l) eqn:Ep.
    - apply prefixb_spec in Ep. specialize (Ho Ep). destruct (ExtractAddress l) as [n| |]; [| |congruence];
        cbn [TextChunks set_Origin4D emsg]; rewrite E; cbn [option_map]; unfold emsg; rewrite EA; eexists _, cs'; (split; [reflexivity|auto]).
    - assert (Hh : match l with c :: _ => c =? 1 | [] => false end = false) by (destruct l as [|c r]; auto; apply Z.eqb_neq; intros ->; eapply H1; reflexivity).
      rewrite Hh. cbn [TextChunks emsg]. rewrite E. cbn [option_map]. unfold emsg. rewrite EA. exists o4, cs'. split; [reflexivity|auto].
  Qed.
  Lemma elines fl mid ls : word ds CW_AREA <> [] -> forall o4 cs, chunks_ok cs -> Forall (fun l => crline l /\ (forall r, l <> 1 :: r) /\ ~ is_seenby_line l /\ origin_ok l) ls ->
    exists o4' cs', addlines (emsg fl o4 mid cs) ls = Some (emsg fl o4' mid cs') /\ chunks_ok cs' /\ concat (rev cs') = concat (rev cs) ++ concat ls.
  Proof using Type.
    intros HA. induction ls as [|l ls IH]; intros o4 cs Hc Hl; [exists o4, cs; cbn; rewrite app_nil_r; auto|]. inversion Hl as [|? ? (A1 & A2 & A3 & A4) Hl']; subst.
    destruct (eline fl o4 mid cs l) as (o1 & c1 & E1 & C1 & T1); auto. destruct (IH o1 c1 C1 Hl') as (o2 & c2 & E2 & C2 & T2). exists o2, c2.
    cbn [addlines concat]. rewrite E1. split; auto. split; auto. rewrite T2, T1, <- app_assoc. reflexivity.
  Qed.
  Lemma emid fl o4 cs : word ds CW_AREA <> [] -> chunks_ok cs -> exists cs', addlines (emsg fl o4 [] cs) (msgidlines ds from num) = Some (emsg fl o4 (mid_of ds from num) cs') /\ chunks_ok cs' /\
    concat (rev cs') = concat (rev cs) ++ concat (msgidlines ds from num).
  Proof using Hfrom Hsays num.
    intros HA Hc. unfold msgidlines, mid_of. destruct (given ds CW_NOMSGID); [exists cs; cbn; rewrite app_nil_r; auto|].
    destruct (idtext_ok from num Hfrom) as (D1 & D2 & D3). set (line := 1 :: lit "MSGID: " ++ (four from ++ lit " " ++ hex 8 num) ++ [13]).
    destruct (mmAddBuf_spec cs line Hc) as (cs' & E & T & Hc'). exists cs'. cbn [addlines concat]. rewrite app_nil_r. split; [|auto].
    unfold mmAddLine. change (prefixb (lit "SEEN-BY:") line) with false. change (prefixb (SOH ++ lit "PATH:") line) with false. change (prefixb (lit " * Origin: ") line) with false.
    rewrite !andb_false_r. change (match line with c :: _ => c =? 1 | [] => false end) with true. cbv iota. unfold line at 1. rewrite pk_msgid_line; [| |lia].
    - change (TextChunks (set_MSGID (emsg fl o4 [] cs) (four from ++ lit " " ++ hex 8 num))) with cs. rewrite E. reflexivity.
    - eapply Forall_impl; [|exact D1]. cbv beta. tauto.
  Qed.
  Definition originline (o : list Z) : list Z := lit " * Origin: " ++ o ++ lit " (" ++ four from ++ lit ")" ++ [13].
  Lemma origin_read o : ExtractAddress (originline o) = M_Pat.POk from.
  Proof using Hfrom Hsays num.
    assert (Hch : Forall (fun c => digit c \/ c = 58 \/ c = 47 \/ c = 46) (four from)).
    { unfold four. apply Forall_app; split; [apply (addr3_chars from Hfrom)|]. change (lit ".") with [46]. constructor; [auto|].
      eapply Forall_impl; [|apply dec_digits; apply Hfrom]. cbv beta. auto. }
    assert (Hno : forall k, ~ (48 <= k <= 58) -> k <> 47 -> k <> 46 -> ~ In k (four from)).
    { intros k H1 H2 H3 Hin. rewrite Forall_forall in Hch. apply Hch in Hin. unfold digit in Hin. lia. }
    destruct (four_line from Hfrom) as (_ & Hl & _).
    assert (Hd : exists c r, four from = c :: r /\ isdigit c = true).
    { unfold four, three. pose proof (dec_digits (zone from) ltac:(apply Hfrom)) as D. pose proof (dec_nonempty (zone from)) as Dn. destruct (dec (zone from)) as [|c r]; [exfalso; apply Dn; auto; apply Hfrom|].
      inversion D; subst. exists c. eexists. split; [reflexivity|]. unfold digit, isdigit in *. lia. }
    unfold originline, ExtractAddress. change (lit " (") with [32; 40]. change (lit ")") with [41].
    replace (lit " * Origin: " ++ o ++ [32; 40] ++ four from ++ [41] ++ [13]) with ((lit " * Origin: " ++ o ++ [32]) ++ 40 :: four from ++ 41 :: [13]) by (rewrite <- !app_assoc; reflexivity).
    rewrite lastparen_here.
    2:{ intros H. apply in_app_or in H as [H|[H|[H|[]]]]; try discriminate. revert H. apply Hno; lia. }
    destruct Hd as (c & r & Ec & Hc). rewrite Ec. cbn [app]. change (c :: r ++ [41; 13]) with ([] ++ c :: r ++ [41; 13]). rewrite (skiptodigit_app [] c (r ++ [41; 13])) by auto.
    change (c :: r ++ [41; 13]) with ((c :: r) ++ 41 :: [13]). rewrite <- Ec. rewrite toparen_app by (try lia; apply Hno; lia).
    unfold Parse5D. rewrite firstn_all2 by lia. rewrite cutat_none by (apply Hno; lia). unfold Parse4D.
    replace (four from) with (WriteNode4D from) by (unfold WriteNode4D, four, three; rewrite <- !app_assoc; reflexivity). rewrite write_parse by auto. reflexivity.
  Qed.
  Lemma eorigin fl o4 mid cs o : zone from <> 0 -> word ds CW_AREA <> [] -> chunks_ok cs -> exists cs', mmAddLine (emsg fl o4 mid cs) (originline o) = Some (emsg fl from mid cs') /\ chunks_ok cs' /\
    concat (rev cs') = concat (rev cs) ++ originline o.
  Proof using Hfrom Hsays num.
    intros Hz HA Hc. destruct (mmAddBuf_spec cs (originline o) Hc) as (cs' & E & T & Hc'). exists cs'. split; [|auto]. unfold mmAddLine. rewrite origin_read.
    change (prefixb (lit "SEEN-BY:") (originline o)) with false. change (prefixb (SOH ++ lit "PATH:") (originline o)) with false. change (prefixb (lit " * Origin: ") (originline o)) with true.
    rewrite !andb_false_r. change (Area (emsg fl o4 mid cs)) with (word ds CW_AREA). destruct (word ds CW_AREA) as [|a0 ar] eqn:EA; [congruence|]. cbn [andb].
    destruct (Z.eqb_spec (zone from) 0); [contradiction|]. cbn [TextChunks set_Origin4D emsg]. rewrite E. cbn [option_map]. unfold emsg. rewrite EA. reflexivity.
  Qed.

  Definition tear : list Z := lit "--- CrashWrite II/Linux 1.5.1" ++ [13].
  Lemma post_reads ls s origin : given ds CW_AREA = true -> area_ok (word ds CW_AREA) -> textfile s ls -> echotext_ok (inmsg ls) -> zone from <> 0 ->
    cstring origin -> ~ In 13 origin -> ~ In 10 origin -> (length origin <= 79)%nat ->
    origin = firstn 79 (says ds CW_ORIGIN (lit "Another user of CrashMail II")) ->
    exists m, reads cfg handle cn h po pd (cw_msghdr from to (cw_attr ds) ++ date ++ [0] ++ fst (fst strs) ++ [0] ++ snd (fst strs) ++ [0] ++ snd strs ++ [0] ++
      cw_kludges ds from to num ++ inmsg ls ++ cw_tail ds from origin ++ [0]) m /\ post ds date from to num ls m /\ PktOrig m = po /\ PktDest m = pd.
  Proof using Hpw Hfrom Hto Hdate Hsays.
    intros HA Har Ht [H1 Hp] Hz Ho H13 H10 Hlo Eo. destruct (inmsg_ok _ _ Ht) as [Hc He].
    assert (Hne : word ds CW_AREA <> []) by apply Har.
    set (u := msgidline ds from num ++ inmsg ls ++ tear ++ originline origin).
    assert (EK : cw_kludges ds from to num ++ inmsg ls ++ cw_tail ds from origin ++ [0] = lit "AREA:" ++ word ds CW_AREA ++ [13] ++ u ++ [0]).
    { unfold cw_kludges, cw_tail, u, originline, tear. rewrite HA, <- msgidline_eq. unfold four, three. repeat (rewrite <- !app_assoc; cbn [app]). reflexivity. }
    rewrite EK, hmsg_bytes. clear EK.
    destruct (msgid_pieces ds from num Hfrom) as [M1 M2]. destruct (four_line from Hfrom) as (F1 & F2 & F3).
    assert (Hct : cstring tear) by (unfold cstring; cbn; repeat (apply Forall_cons; [lia|]); constructor).
    assert (Hco : cstring (originline origin)).
    { unfold originline. assert (forall a b : list Z, cstring a -> cstring b -> cstring (a ++ b)) as CA by (intros; apply Forall_app; auto).
      apply CA; [unfold cstring; cbn; repeat (apply Forall_cons; [lia|]); constructor|]. apply CA; [auto|]. apply CA; [unfold cstring; cbn; repeat (apply Forall_cons; [lia|]); constructor|].
      apply CA; [auto|]. unfold cstring; cbn; repeat (apply Forall_cons; [lia|]); constructor. }
    assert (Hcu : cstring u) by (unfold u; unfold cstring in *; repeat (apply Forall_app; split; [assumption|]); assumption).
    assert (Epo : pieces (originline origin) = [originline origin]).
    { unfold originline. replace (lit " * Origin: " ++ origin ++ lit " (" ++ four from ++ lit ")" ++ [13]) with ((lit " * Origin: " ++ origin ++ lit " (" ++ four from ++ lit ")") ++ [13]) by (rewrite <- !app_assoc; reflexivity).
      apply pieces_line; [discriminate| |].
      - assert (Hoo : Forall (fun c => c <> 13 /\ c <> 10) origin) by (apply Forall_forall; intros c Hcc; split; intros ->; auto).
        apply Forall_app; split; [cbn; repeat (apply Forall_cons; [lia|]); constructor|]. apply Forall_app; split; auto.
        apply Forall_app; split; [cbn; repeat (apply Forall_cons; [lia|]); constructor|]. apply Forall_app; split; auto. cbn; repeat (apply Forall_cons; [lia|]); constructor.
      - rewrite !app_length. change (length (lit " * Origin: ")) with 11%nat. change (length (lit " (")) with 2%nat. change (length (lit ")")) with 1%nat. lia. }
    assert (Ept : forall t, pieces (tear ++ t) = tear :: pieces t).
    { intros t. unfold tear. rewrite <- app_assoc. apply pieces_first; [discriminate| |cbn; lia]. cbn; repeat (apply Forall_cons; [lia|]); constructor. }
    assert (Epu : pieces u = msgidlines ds from num ++ pieces (inmsg ls) ++ [tear; originline origin]).
    { unfold u. rewrite M2. f_equal. rewrite pieces_app by auto. f_equal. rewrite Ept, Epo. reflexivity. }
    set (fl := if pc_nosecurity cfg then MMFLAG_NOSECURITY else 0).
    assert (Hadd : exists cs, addlines (emsg fl null4d [] []) (pieces u) = Some (emsg fl from (mid_of ds from num) cs) /\ concat (rev cs) = u).
    { destruct (emid fl null4d [] Hne ltac:(constructor)) as (c1 & E1 & C1 & T1).
      destruct (elines fl (mid_of ds from num) (pieces (inmsg ls)) Hne null4d c1 C1) as (o2 & c2 & E2 & C2 & T2).
      { pose proof (pieces_crline _ Hc He) as Hcr. pose proof (pieces_no1 _ H1) as Hn1. apply Forall_forall. intros l Hl. rewrite Forall_forall in Hcr, Hn1, Hp.
        destruct (Hp l Hl) as [Hs Hor]. split; [auto|]. split; [auto|]. split; [auto|]. intros Hx. destruct (Hor Hx) as [Hw|Hn].
        - destruct (wf_origin_ok l Hw) as (n & ->). discriminate.
        - unfold ExtractAddress. rewrite lastparen_none by auto. discriminate. }
      destruct (eline fl o2 (mid_of ds from num) c2 tear) as (o3 & c3 & E3 & C3 & T3); auto.
      { split; [auto|]. left. exists (lit "--- CrashWrite II/Linux 1.5.1"), 13. auto. }
      { intros r Hr. discriminate Hr. } { intros (r & Hr). discriminate Hr. } { intros (r & Hr). discriminate Hr. }
      destruct (eorigin fl o3 (mid_of ds from num) c3 origin Hz Hne C3) as (c4 & E4 & C4 & T4).
      exists c4. rewrite Epu, !addlines_app, E1. cbn [obind]. rewrite addlines_app, E2. cbn [obind addlines]. rewrite E3, E4. split; [reflexivity|].
      rewrite T4, T3, T2, T1, pieces_concat, msgidlines_eq. cbn [rev concat]. rewrite app_nil_l. unfold u. rewrite <- !app_assoc. reflexivity. }
    destruct Hadd as (cs & Ecs & Etx).
    exists (tossed (emsg fl from (mid_of ds from num) cs)). split; [|split; [|split; reflexivity]].
    - apply reads_msg; [exact Hpw|apply hmsg_ok|]. intros st rest. rewrite hmsg_init. fold fl.
      replace ((lit "AREA:" ++ word ds CW_AREA ++ [13] ++ u ++ [0]) ++ rest) with (lit "AREA:" ++ word ds CW_AREA ++ [13] ++ u ++ 0 :: rest) by (rewrite <- !app_assoc; reflexivity).
      rewrite readbody_echo by auto. change (set_Area (base fl) (word ds CW_AREA)) with (emsg fl null4d [] []). rewrite Ecs. reflexivity.
    - split; [apply head_ok; reflexivity|]. do 8 (split; [reflexivity|]).
      change (mmtext (tossed (emsg fl from (mid_of ds from num) cs))) with (concat (rev cs)). rewrite Etx, <- Eo. unfold u, tear, originline. repeat (rewrite <- !app_assoc; cbn [app]). reflexivity.
  Qed.
End Msg.

(** ** The words of the command line *)
Definition goodval (P : list Z -> Prop) (d : option aval) : Prop := match d with Some (VWord w) => P w | _ => True end.
Lemma setd_good P v : (match v with VWord w => P w | VTrue => True end) -> forall ds j, Forall (goodval P) ds -> Forall (goodval P) (setd j v ds).
Proof. intros Hv. induction ds as [|d ds IH]; intros j H; [destruct j; constructor|]. inversion H; subst. destruct j; cbn [setd]; constructor; auto. Qed.
Lemma argloop_good P tbl : forall n ws ds ds', (length ws <= n)%nat -> Forall P ws -> Forall (goodval P) ds -> argloop tbl ds ws = Some ds' -> Forall (goodval P) ds'.
Proof.
  induction n as [|n IH]; intros ws ds ds' Hn Hw Hd H; (destruct ws as [|w r]; [cbn in H; injection H as <-; auto|]); [cbn in Hn; lia|].
  inversion Hw as [|? ? Hw1 Hw2]; subst. cbn [length] in Hn. cbn [argloop] in H. destruct (keyfind tbl w) as [j|].
  - destruct (typeof tbl j).
    + destruct r as [|v r']; [discriminate|]. inversion Hw2; subst. cbn [length] in Hn. eapply (IH r'); [lia|auto| |exact H]. apply setd_good; auto.
    + eapply (IH r); [lia|auto| |exact H]. apply setd_good; auto.
  - destruct (autofind tbl ds) as [j|]; [|discriminate]. eapply (IH r); [lia|auto| |exact H]. apply setd_good; auto.
Qed.
Lemma parseargs_good P tbl ws ds : Forall P ws -> parseargs tbl ws = Some ds -> Forall (goodval P) ds.
Proof.
  intros Hw H. unfold parseargs in H. destruct (argloop tbl (repeat None (length tbl)) ws) as [d|] eqn:E; [|discriminate]. destruct (mandatory tbl d); [|discriminate]. injection H as <-.
  eapply argloop_good; [| | |exact E]; [apply le_n|auto|]. apply Forall_forall. intros x Hx. apply repeat_spec in Hx. subst. exact I.
Qed.
Lemma word_good ws ds j : Forall cstring ws -> parseargs args_crashwrite ws = Some ds -> cstring (word ds j).
Proof.
  intros Hw H. apply (parseargs_good _ _ _ _ Hw) in H. unfold word, argd. destruct (nth_error ds j) as [d|] eqn:E; [|constructor]. apply nth_error_In in E. rewrite Forall_forall in H.
  specialize (H d E). destruct d as [[w|]|]; [exact H|constructor|constructor].
Qed.
Lemma says_good ws ds : Forall cstring ws -> parseargs args_crashwrite ws = Some ds -> forall j d, cstring d -> cstring (says ds j d).
Proof. intros Hw H j d Hd. unfold says. destruct (given ds j); auto. eapply word_good; eauto. Qed.

(** ** The name of the packet *)
Lemma pktname_full dir num : cstring dir -> (length dir <= 180)%nat -> exists b, MakeFullPath dir (hex 8 num ++ lit ".pkt") (repeat 0 200) 200 = Some b /\ cstr b = pktname dir num.
Proof.
  intros Hd Hl. destruct (hex_line 8 num) as [_ Hh].
  assert (Hf : cstring (hex 8 num ++ lit ".pkt")) by (apply Forall_app; split; auto; unfold cstring; cbn; repeat (apply Forall_cons; [lia|]); constructor).
  destruct (MakeFullPath_spec dir (hex 8 num ++ lit ".pkt") (repeat 0 200) 200 (repeat_length 0 200) ltac:(lia) Hd Hf) as (b & t & E & Hb & Ht & _).
  exists b. split; auto. assert (Et : t = pktname dir num).
  { apply Ht. unfold joinpath. destruct (rev dir) as [|c d]; [|destruct (_ =? _)]; rewrite ?app_length, hex_length; cbn [length] in *; change (length (lit ".pkt")) with 4%nat; try change (length [PATHCHAR]) with 1%nat; lia. }
  rewrite <- Et. apply Hb.
Qed.
Lemma choose_some fuel E fs dir : cstring dir -> (length dir <= 180)%nat -> forall k num nm, cw_choose fuel E fs dir k = Some (num, nm) ->
  is_u32 num /\ nm = pktname dir num /\ fget fs nm = None /\ exists i, num = u32 (cw_clock E i * 256 + Z.of_nat i).
Proof.
  intros Hd Hl. induction fuel as [|f IH]; intros k num nm H; [discriminate|]. cbn [cw_choose] in H. cbv zeta in H.
  destruct (pktname_full dir (u32 (cw_clock E k * 256 + Z.of_nat k)) Hd Hl) as (b & Eb & Ec). rewrite Eb, Ec in H.
  destruct (osExists fs (pktname dir (u32 (cw_clock E k * 256 + Z.of_nat k)))) eqn:Ex; [eauto|]. injection H as <- <-.
  split; [unfold is_u32, u32; apply Z.mod_pos_bound; lia|]. split; [reflexivity|]. split; [|eauto]. unfold osExists in Ex. destruct (fget fs _); congruence.
Qed.
Lemma choose_free fuel E fs dir : forall k num nm, cw_choose fuel E fs dir k = Some (num, nm) -> fget fs nm = None.
Proof.
  induction fuel as [|f IH]; intros k num nm H; [discriminate|]. cbn [cw_choose] in H. cbv zeta in H. destruct (MakeFullPath _ _ _ _) as [b|]; [|discriminate].
  destruct (osExists fs (cstr b)) eqn:Ex; [eauto|]. injection H as <- <-. unfold osExists in Ex. destruct (fget fs _); congruence.
Qed.
Lemma pktname_inj dir a b : is_u32 a -> is_u32 b -> pktname dir a = pktname dir b -> a = b.
Proof.
  intros Ha Hb H. unfold pktname in H. assert (E : hex 8 a ++ lit ".pkt" = hex 8 b ++ lit ".pkt").
  { unfold joinpath in H. destruct (rev dir) as [|c d]; [exact H|]. destruct (_ =? _); apply app_inv_head in H; [exact H|]. try (apply app_inv_head in H); exact H. }
  apply app_inv_tail in E. apply hex_inj in E; auto.
Qed.

Lemma steady_mono E k : (forall i, (i < k)%nat -> cw_clock E i <= cw_clock E (S i)) -> forall i j, (i <= j)%nat -> (j <= k)%nat -> cw_clock E i <= cw_clock E j.
Proof. intros H i j Hij. induction Hij as [|j Hij IH]; intros Hk; [lia|]. specialize (H j ltac:(lia)). specialize (IH ltac:(lia)). lia. Qed.
Lemma steady_inj E k i j : steady E k -> (i < j)%nat -> (j <= k)%nat -> u32 (cw_clock E i * 256 + Z.of_nat i) <> u32 (cw_clock E j * 256 + Z.of_nat j).
Proof.
  intros (Hm & Hs & Hk) Hij Hj. pose proof (steady_mono E k Hm i j ltac:(lia) Hj). pose proof (steady_mono E k Hm 0 i ltac:(lia) ltac:(lia)). pose proof (steady_mono E k Hm j k Hj (le_n k)).
  set (a := cw_clock E i * 256 + Z.of_nat i). set (b := cw_clock E j * 256 + Z.of_nat j). assert (0 < b - a < 4294967296) by (unfold a, b; lia).
  unfold u32. intros Heq. assert (E0 : (b - a) mod 4294967296 = 0) by (rewrite Zminus_mod, Heq, Z.sub_diag; reflexivity). rewrite Z.mod_small in E0; lia.
Qed.
Lemma choose_none fuel E fs dir : cstring dir -> (length dir <= 180)%nat -> forall k, cw_choose fuel E fs dir k = None ->
  forall i, (k <= i < k + fuel)%nat -> In (pktname dir (u32 (cw_clock E i * 256 + Z.of_nat i))) (map fst fs).
Proof.
  intros Hd Hl. induction fuel as [|f IH]; intros k H i Hi; [lia|]. cbn [cw_choose] in H. cbv zeta in H.
  destruct (pktname_full dir (u32 (cw_clock E k * 256 + Z.of_nat k)) Hd Hl) as (b & Eb & Ec). rewrite Eb, Ec in H.
  destruct (osExists fs (pktname dir (u32 (cw_clock E k * 256 + Z.of_nat k)))) eqn:Ex; [|discriminate].
  destruct (Nat.eq_dec i k) as [->|]; [apply osExists_In; auto|]. apply (IH (S k) H). lia.
Qed.
Lemma choose_found fuel E fs dir : cstring dir -> (length dir <= 180)%nat -> steady E (length fs) -> (length fs < fuel)%nat -> exists num nm, cw_choose fuel E fs dir 0 = Some (num, nm).
Proof.
  intros Hd Hl Hst Hf. destruct (cw_choose fuel E fs dir 0) as [[num nm]|] eqn:Ec; [eauto|exfalso].
  pose proof (choose_none fuel E fs dir Hd Hl 0 Ec) as Hin.
  set (g := fun i => pktname dir (u32 (cw_clock E i * 256 + Z.of_nat i))).
  assert (Hnd : NoDup (map g (seq 0 (S (length fs))))).
  { assert (HI : forall i j, In i (seq 0 (S (length fs))) -> In j (seq 0 (S (length fs))) -> g i = g j -> i = j).
    { intros i j Hi Hj Hg. apply in_seq in Hi, Hj. apply pktname_inj in Hg; try apply u32_range. destruct (Nat.lt_trichotomy i j) as [L|[L|L]]; [|exact L|].
      - destruct (steady_inj E _ i j Hst L ltac:(lia) Hg).
      - symmetry in Hg. destruct (steady_inj E _ j i Hst L ltac:(lia) Hg). }
    revert HI. generalize (seq_NoDup (S (length fs)) 0). generalize (seq 0 (S (length fs))). intros l Hl'. induction Hl' as [|x l Hx Hl' IH]; intros HI; cbn [map]; constructor.
    - intros Hi. apply in_map_iff in Hi as (y & Hy & Hy'). apply Hx. rewrite (HI x y); auto; [left; auto|right; auto].
    - apply IH. intros i j Hi Hj. apply HI; right; auto. }
  pose proof (NoDup_incl_length Hnd (l' := map fst fs)) as HL. rewrite !map_length, seq_length in HL. assert (S (length fs) <= length fs)%nat; [|lia]. apply HL.
  intros x Hx. apply in_map_iff in Hx as (i & <- & Hi). apply in_seq in Hi. apply Hin. lia.
Qed.

(** ** A run *)
Lemma means_addr ds j d n : means ds j d n -> cw_addr ds j d = Some n.
Proof. unfold means, cw_addr. destruct (given ds j); congruence. Qed.
Lemma means_valid ds j d n : valid4d d -> means ds j d n -> valid4d n.
Proof. unfold means. destruct (given ds j); intros Hd H; [eapply parse_valid; [|exact H]; unfold valid4d, is_u16; cbn; lia|subst; auto]. Qed.
Lemma null_valid : valid4d (N4 0 0 0 0).
Proof. unfold valid4d, is_u16; cbn. lia. Qed.
Definition packet (E : cwenv) (ds : adata) (from to pfrom pto : node4d) (num : Z) (ls : list (list Z)) : list Z :=
  cw_pkthdr (cw_localtime E (cw_time E)) pfrom pto (if given ds CW_PASSWORD then Some (word ds CW_PASSWORD) else None) ++
  cw_msghdr from to (cw_attr ds) ++ MakeFidoDate (cw_localtime E) (cw_time E) ++ [0] ++ firstn 35 (says ds CW_TONAME (lit "All")) ++ [0] ++
  firstn 35 (says ds CW_FROMNAME (lit "CrashWrite")) ++ [0] ++ firstn 71 (says ds CW_SUBJECT (lit "Information")) ++ [0] ++ cw_kludges ds from to num ++ inmsg ls ++
  cw_tail ds from (firstn 79 (says ds CW_ORIGIN (lit "Another user of CrashMail II"))) ++ [0; 0; 0].
Lemma lit_cstring (s : list Z) : forallb (fun c => (1 <=? c) && (c <? 256)) s = true -> cstring s.
Proof. intros H. rewrite forallb_forall in H. apply Forall_forall. intros c Hc. apply H in Hc. lia. Qed.
Lemma run_ok fuel E argv fs ds from to pfrom pto ls : order argv ds from to pfrom pto -> (length (word ds CW_DIR) <= 180)%nat -> textlines ds fs ls ->
  steady E (length fs) -> (length fs < fuel)%nat -> (forall n, cw_create E n = true) ->
  exists num, is_u32 num /\ fget fs (pktname (word ds CW_DIR) num) = None /\
    crashwrite fuel E argv fs = Some (EXIT_OK, fput fs (pktname (word ds CW_DIR) num) (packet E ds from to pfrom pto num ls)).
Proof.
  intros (Hargv & Hhelp & Hp & Hm1 & Hm2 & Hm3 & Hm4) Hdir Ht Hst Hfuel Hcr. pose proof (says_good _ _ Hargv Hp) as Hsays. pose proof (word_good _ _ CW_DIR Hargv Hp) as Hwd.
  destruct (choose_found fuel E fs _ Hwd Hdir Hst Hfuel) as (num & nm & Ec). destruct (choose_some _ _ _ _ Hwd Hdir _ _ _ Ec) as (Hn & -> & Hnone & _). exists num. split; auto. split; auto.
  unfold crashwrite. rewrite Hp. replace (match argv with w :: _ => helpword w | [] => false end) with false by (destruct argv as [|w r]; auto; symmetry; eapply Hhelp; reflexivity).
  unfold cw_run. rewrite (means_addr _ _ _ _ Hm1), (means_addr _ _ _ _ Hm2), (means_addr _ _ _ _ Hm3), (means_addr _ _ _ _ Hm4).
  rewrite !string_eq by (first [lia|apply Hsays, lit_cstring; reflexivity]). cbn [obind]. rewrite Ec. cbn [obind]. rewrite Hcr. cbv zeta.
  unfold textlines in Ht. unfold packet. destruct (given ds CW_TEXT).
  - destruct Ht as (f & Hf & Htf). destruct (streq (word ds CW_TEXT) _) eqn:Es; [apply streq_eq in Es; congruence|]. rewrite Hf, (text_eq _ _ Htf) by lia. repeat (rewrite <- !app_assoc; cbn [app]). reflexivity.
  - subst ls. change (inmsg []) with (@nil Z). repeat (rewrite <- !app_assoc; cbn [app]). reflexivity.
Qed.
Lemma text_of ds fs ls : textlines ds fs ls -> exists s, textfile s ls.
Proof. unfold textlines. destruct (given ds CW_TEXT); [intros (f & _ & H); eauto|intros ->; exists []; constructor]. Qed.
Lemma date_field E : fields (cw_localtime E (cw_time E)) -> 0 <= tm_year (cw_localtime E (cw_time E)) -> field 19 (MakeFidoDate (cw_localtime E) (cw_time E)).
Proof.
  intros H1 H2. rewrite make_standard by auto. split; [|rewrite standard_length by auto; lia]. intros H0. pose proof (standard_cstring _ H1) as Hc. unfold cstring in Hc. rewrite Forall_forall in Hc. specialize (Hc 0 H0). lia.
Qed.
