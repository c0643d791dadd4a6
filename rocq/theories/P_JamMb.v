(** Lemmas for message areas in JAM format. *)
From Verif Require Import Base M_Node4D M_Str P_Str M_Mem M_Cfg M_Net M_Filter M_Msg P_Net M_Jam S_Jam P_Jam M_JamMaint S_JamMaint P_JamMaint M_JamMb S_JamMb.

Lemma made_rep crc K j s : (forall u, is_u32 (crc u)) -> jmade crc K j s -> rep K j s.
Proof.
  intros Hcrc. induction 1 as [now base Hb|K j s o j' _ IH Ho HK E]; [apply create_rep; auto|]. destruct (step_rep crc K j s o Hcrc IH Ho HK) as (j1 & E1 & H). congruence.
Qed.
(** ** Reading *)
Lemma full_only j n h subs : JAM_ReadMsgHeader j n = Some (Good (h, subs)) -> JAM_ReadOnlyHeader j n = Good h.
Proof.
  unfold JAM_ReadMsgHeader, JAM_ReadOnlyHeader. destruct (readindex j n) as [e|]; [|discriminate]. destruct (nomessage e); [discriminate|]. destruct (freadat (snd e) 76 (j_hdr j)) as [l|]; [|discriminate].
  destruct (h_sublen (gethdr l) =? 0); [congruence|]. destruct (2147483648 <=? h_sublen (gethdr l)); [discriminate|]. destruct (freadat (snd e + 76) _ _) as [buf|]; [|discriminate]. destruct (cutout _ buf) as [[?|?]|]; cbn [obind]; congruence.
Qed.
Lemma readindex_more hdr txt lrd ps x n : Forall place_ok ps -> 0 <= n -> (Z.to_nat n < length ps)%nat -> readindex (JAM hdr txt (index ps ++ x) lrd) n = readindex (JAM hdr txt (index ps) lrd) n.
Proof.
  intros F Hn H. rewrite readindex_place by auto. unfold readindex. cbn [j_idx]. destruct (nth_error ps (Z.to_nat n)) as [p|] eqn:E; [|apply nth_error_None in E; lia]. cbn [option_map].
  replace (n * 8) with (Z.of_nat (8 * Z.to_nat n)) by lia. change 8%nat with (length (idxbytes (entry p))) at 2. rewrite at_read; [|apply idx_nonempty|apply at_append, index_at; auto]. cbn [option_map].
  rewrite Forall_forall in F. destruct (entry_ok p) as [? ?]; [apply F; eapply nth_error_In; eauto|]. rewrite idx_back; auto.
Qed.
Lemma add_keeps crc K j s h subs text st j' n : (forall u, is_u32 (crc u)) -> rep K j s -> op_fine (Add h subs text) -> K + opsize (Add h subs text) < 4294967295 ->
  JAM_AddMessage crc nocuts j h subs text = Some (st, j') -> 0 <= n < Z.of_nat (length (x_slots s)) -> JAM_ReadOnlyHeader j' n = JAM_ReadOnlyHeader j n.
Proof.
  intros Hcrc (b & ps & Ha & Hb & Hnum & Hact & Hidx & Hold & Hlen) Ho Hsz E Hn. destruct (add_at _ _ _ _ _ _ _ _ _ _ _ _ Hcrc Ha Hb Hnum Hact Hidx Hold Hlen Ho Hsz E) as (_ & x & H2 & H3). destruct j as [hdr txt idx lrd], j' as [hdr' txt' idx' lrd']. cbn [j_hdr j_txt j_idx] in *. subst idx idx'.
  transitivity (JAM_ReadOnlyHeader (JAM hdr' txt' (index ps) lrd') n).
  - unfold JAM_ReadOnlyHeader. destruct H3 as (G1 & G2 & _). rewrite readindex_more; auto; [lia|]. rewrite <- (Forall2_len _ _ _ G2). lia.
  - rewrite !readonly_holds with (ss := x_slots s) by (auto; lia). reflexivity.
Qed.
Lemma size_rep K j s : rep K j s -> Z.of_nat (length (x_slots s)) < 4294967296 -> JAM_GetMBSize j = Z.of_nat (length (x_slots s)).
Proof.
  intros (b & ps & _ & _ & _ & _ & Hidx & (_ & Hf & _) & _) H. unfold JAM_GetMBSize. rewrite Hidx, index_div, <- (Forall2_len _ _ _ Hf). apply u32_id. unfold is_u32. lia.
Qed.

(** ** Bits *)
Lemma flag_pow a k : 0 <= k -> flag a (2 ^ k) = Z.testbit a k.
Proof.
  intros Hk. unfold flag. destruct (Z.testbit a k) eqn:E.
  - destruct (Z.eqb_spec (Z.land a (2 ^ k)) 0) as [E0|]; [|reflexivity]. apply (f_equal (fun z => Z.testbit z k)) in E0. rewrite Z.land_spec, E, Z.pow2_bits_true, Z.bits_0 in E0 by lia. discriminate.
  - destruct (Z.eqb_spec (Z.land a (2 ^ k)) 0) as [|E0]; [reflexivity|]. exfalso. apply E0. apply Z.bits_inj'. intros n Hn. rewrite Z.land_spec, Z.bits_0, Z.pow2_bits_eqb by lia.
    destruct (Z.eqb_spec k n); [subst n; rewrite E; reflexivity|apply andb_false_r].
Qed.
Lemma lor_setbit a k : Z.lor a (2 ^ k) = Z.setbit a k.
Proof. rewrite Z.setbit_spec'. reflexivity. Qed.
Lemma setbit_u32' a k : 0 <= k < 32 -> is_u32 a -> is_u32 (Z.setbit a k).
Proof.
  intros Hk [H1 H2]. assert (E : Z.setbit a k mod 2 ^ 32 = Z.setbit a k); [|unfold is_u32; rewrite <- E; apply (Z.mod_pos_bound _ (2 ^ 32)); lia]. rewrite <- Z.land_ones by lia. apply Z.bits_inj'. intros n Hn. rewrite Z.land_spec, Z.testbit_ones, Z.setbit_eqb by lia.
  destruct (Z.ltb_spec n 32); [destruct (Z.leb_spec 0 n); [apply andb_true_r|lia]|]. destruct (Z.eqb_spec k n); [lia|]. cbn [orb]. replace (Z.testbit a n) with false; [destruct (0 <=? n); reflexivity|]. symmetry. destruct (Z.eqb_spec a 0) as [->|]; [apply Z.bits_0|]. apply Z.bits_above_log2; [lia|]. assert (Z.log2 a < 32) by (apply Z.log2_lt_pow2; lia). lia.
Qed.

(** ** The attributes of the message handed on *)
Lemma flag_lor a b f : flag (Z.lor a b) f = flag a f || flag b f.
Proof. unfold flag. rewrite Z.land_lor_distr_l. destruct (Z.eqb_spec (Z.land a f) 0) as [->|N]; cbn [negb orb]; [rewrite Z.lor_0_l; reflexivity|]. destruct (Z.eqb_spec (Z.lor (Z.land a f) (Z.land b f)) 0) as [E|]; [|reflexivity]. apply Z.lor_eq_0_iff in E. tauto. Qed.
Lemma flag1_attr attr l : forall a fl, flag a FLAG_KILLSENT = false -> flag (fst (fold_left (jamflag1 attr) l (a, fl))) FLAG_KILLSENT = existsb (fun x => flag attr (jf_jam x) && flag (jf_fido x) FLAG_KILLSENT) l.
Proof.
  enough (G : forall a fl, flag (fst (fold_left (jamflag1 attr) l (a, fl))) FLAG_KILLSENT = flag a FLAG_KILLSENT || existsb (fun x => flag attr (jf_jam x) && flag (jf_fido x) FLAG_KILLSENT) l) by (intros a fl E; rewrite G, E; reflexivity).
  induction l as [|x l IH]; intros a fl; cbn [fold_left existsb]; [rewrite orb_false_r; reflexivity|]. unfold jamflag1 at 2. destruct (flag attr (jf_jam x)); cbn [andb orb]; [|apply IH].
  destruct (Z.eqb_spec (jf_fido x) 0) as [E|E]; cbn [negb].
  - rewrite E. change (flag 0 FLAG_KILLSENT) with false. cbn [orb]. destruct (jf_name x); [apply IH|]. destruct (Nat.ltb (length fl) 90); apply IH.
  - rewrite IH, flag_lor, orb_assoc. reflexivity.
Qed.
Lemma field_attr x f x' : jamfield x f = Some x' -> Attr (jx_mm x') = Attr (jx_mm x).
Proof.
  unfold jamfield. intros E.
  assert (B : forall g, (forall b, Attr (g b) = Attr (jx_mm x)) -> option_map (fun b => JX (g b) (Some b) (jx_file x) (jx_flags x) (jx_addr x)) (fieldcpy 200 (sf_data f)) = Some x' -> Attr (jx_mm x') = Attr (jx_mm x)).
  { intros g Hg. destruct (fieldcpy 200 (sf_data f)) as [b|]; cbn [option_map]; [|discriminate]. intros H. injection H as <-. apply Hg. }
  assert (Kl : forall pre, option_map (fun mm => JX mm (jx_buf x) (jx_file x) (jx_flags x) (jx_addr x)) (jam_makekludge (jx_mm x) pre (sf_data f)) = Some x' -> Attr (jx_mm x') = Attr (jx_mm x)).
  { intros pre. unfold jam_makekludge. destruct (mmAddLine (jx_mm x) _) as [m|] eqn:Em; cbn [option_map]; [|discriminate]. intros H. injection H as <-. apply addline_mark in Em. apply Em. }
  repeat match type of E with (if ?c then _ else _) = _ => destruct c end; try (eapply B; [|exact E]; cbn beta; intros b; try destruct (Parse5D b) as [[? ?]|]; reflexivity); try (eapply Kl; exact E); try congruence.
  - destruct (fieldcpy 200 (sf_data f)) as [b|]; cbn [obind] in E; [|discriminate]. destruct (jx_addr x); match type of E with Some ?a = Some x' => assert (Hx : x' = a) by congruence; subst x' end; cbn [jx_mm]; [reflexivity|]. destruct (Parse5D b) as [[? ?]|]; reflexivity.
  - destruct (fieldcpy 200 (sf_data f)); cbn [option_map] in E; [|discriminate]. injection E as <-. reflexivity.
  - destruct (fieldcpy 192 (sf_data f)); cbn [option_map] in E; [|discriminate]. injection E as <-. reflexivity.
Qed.
Lemma fields_attr l : forall x x', jamfields x l = Some x' -> Attr (jx_mm x') = Attr (jx_mm x).
Proof. induction l as [|f l IH]; intros x x' E; cbn [jamfields] in E; [congruence|]. destruct (jamfield x f) as [x1|] eqn:E1; cbn [obind] in E; [|discriminate]. rewrite (IH _ _ E). apply (field_attr _ _ _ E1). Qed.
Lemma memmsg_killsent cfg fd resc h subs text mm oa : jam_memmsg cfg fd resc h subs text = Some (mm, oa) -> flag oa FLAG_KILLSENT = Z.testbit (h_attr h) 5.
Proof.
  unfold jam_memmsg. destruct (jamfields _ subs) as [x|] eqn:Ex; cbn [obind]; [|discriminate]. apply fields_attr in Ex. cbn [jx_mm] in Ex. change (Attr (set_Area mm0 _)) with 0 in Ex.
  set (mf := match jx_file x with [] => _ | _ => _ end). assert (Hf : flag (Attr mf) FLAG_KILLSENT = false).
  { unfold mf. destruct (jx_file x); [|cbn [set_Subject set_Attr Attr]]; rewrite Ex; reflexivity. }
  cbn [Attr]. pose proof (flag1_attr (h_attr h) jam_flagarray (Attr mf) (jx_flags x) Hf) as H. destruct (fold_left (jamflag1 (h_attr h)) jam_flagarray (Attr mf, jx_flags x)) as [a fl]. cbn [fst] in H.
  assert (H5 : existsb (fun y => flag (h_attr h) (jf_jam y) && flag (jf_fido y) FLAG_KILLSENT) jam_flagarray = Z.testbit (h_attr h) 5).
  { rewrite <- (flag_pow (h_attr h) 5) by lia. change (2 ^ 5) with 32. unfold jam_flagarray. cbn [existsb]. unfold jf_jam, jf_fido. cbn [fst snd]. repeat match goal with |- context [flag ?b FLAG_KILLSENT] => let v := eval vm_compute in (flag b FLAG_KILLSENT) in change (flag b FLAG_KILLSENT) with v end. rewrite ?andb_false_r, ?andb_true_r. cbn [orb]. apply orb_false_r. }
  rewrite H5 in H. clear H5. intros E.
  repeat match type of E with obind ?o _ = _ => destruct o; cbn [obind] in E; [|discriminate] end. injection E as _ <-. exact H.
Qed.

(** ** Importing *)
Lemma impsize_nonneg crc cfg i : 0 <= impsize crc cfg i.
Proof. unfold impsize. destruct (jam_message crc cfg i) as [[[h subs] text]|]; [|lia]. cbn [opsize]. pose proof (subsize_nonneg subs). lia. Qed.
Lemma impsizes_nonneg crc cfg l : 0 <= impsizes crc cfg l.
Proof. induction l as [|i l IH]; cbn [impsizes fold_right]; [lia|]. fold (impsizes crc cfg l). pose proof (impsize_nonneg crc cfg i). lia. Qed.
Definition sameja (a a' : jarea) : Prop := ja_num a' = ja_num a /\ ja_size a' = ja_size a /\ ja_oldhw a' = ja_oldhw a /\ ja_hw a' = ja_hw a.
Lemma sameja_refl a : sameja a a.
Proof. repeat split. Qed.
Lemma sameja_trans a b c : sameja a b -> sameja b c -> sameja a c.
Proof. unfold sameja. intuition congruence. Qed.
(** more messages behind the others *)
Definition longer (s s' : abase) : Prop := x_num s' = x_num s /\ exists new, x_slots s' = x_slots s ++ new.
Lemma longer_refl s : longer s s.
Proof. split; auto. exists []. rewrite app_nil_r. reflexivity. Qed.
Lemma longer_trans a b c : longer a b -> longer b c -> longer a c.
Proof. intros (H1 & x & H2) (H3 & y & H4). split; [congruence|]. exists (x ++ y). rewrite H4, H2, app_assoc. reflexivity. Qed.

  (** ** Opening *)
  Lemma getarea_new crc K j s hw : (forall u, is_u32 (crc u)) -> jmade crc K j s -> nextnum s < 4294967296 ->
    jam_getarea (JS j hw None) = (Some (JA (x_num s) (Z.of_nat (length (x_slots s))) 0 0 false), JS j hw (Some (JA (x_num s) (Z.of_nat (length (x_slots s))) 0 0 false))) /\ is_u32 (x_num s).
  Proof.
    intros Hcrc HM Hn. assert (HR := made_rep _ _ _ _ Hcrc HM). destruct (rep_read _ _ _ HR) as (b & H1 & H2 & _). unfold nextnum in Hn.
    assert (Hx : is_u32 (x_num s)). { destruct HR as (b0 & ps & _ & (_ & _ & F) & <- & _). repeat match goal with H : Forall _ (_ :: _) |- _ => inversion_clear H end. auto. }
    split; [|exact Hx]. unfold jam_getarea. cbn [js_open js_base js_hw]. rewrite (size_rep _ _ _ HR) by (unfold is_u32 in Hx; lia). rewrite H1, H2. reflexivity.
  Qed.

Section Scan.
  Context (crc : list Z -> Z) (cfg : jcfg) (fidodate : Z -> list Z) (handle : Z -> memmsg -> jres2) (lock : Z -> bool) (now : Z -> Z) (B : Z).
  Hypothesis Hcrc : forall u, is_u32 (crc u).
  Hypothesis Hh : forall n mm, Forall (storable crc cfg) (jr_imports (handle n mm)) /\ impsizes crc cfg (jr_imports (handle n mm)) <= B.

  Lemma imports_made l : Forall (storable crc cfg) l -> forall K j s hw a, jmade crc K j s -> K + impsizes crc cfg l < 4294967295 ->
    exists K' j' s' a', jam_imports crc cfg l (JS j hw (Some a)) = Some (JS j' hw (Some a')) /\ jmade crc K' j' s' /\ K' <= K + impsizes crc cfg l /\ longer s s' /\ sameja a a' /\
      forall n, 0 <= n < Z.of_nat (length (x_slots s)) -> JAM_ReadOnlyHeader j' n = JAM_ReadOnlyHeader j n.
  Proof.
    induction 1 as [|i l Hi F IH]; intros K j s hw a HM HK; cbn [jam_imports].
    { exists K, j, s, a. split; auto. split; auto. split; [cbn; lia|]. split; [apply longer_refl|]. split; [apply sameja_refl|]. auto. }
    cbn [impsizes fold_right] in *. fold (impsizes crc cfg l) in *. pose proof (impsizes_nonneg crc cfg l) as H0. pose proof (impsize_nonneg crc cfg i) as H1. destruct Hi as (Hc & h & subs & text & Em & Ho).
    unfold jam_importfunc. unfold jam_getarea. cbn [js_open js_base js_hw]. rewrite Em. cbn [obind]. unfold impsize in *. rewrite Em in *. destruct (ji_lock i).
    - destruct (step_rep crc K j s _ Hcrc (made_rep _ _ _ _ Hcrc HM) Ho ltac:(lia)) as (j1 & E1 & HR1). assert (HM1 := made_op crc K j s _ j1 HM Ho ltac:(lia) E1). cbn [jstep] in E1. rewrite Hc. destruct (JAM_AddMessage crc nocuts j h subs text) as [[st j']|] eqn:Ea; [|discriminate]. cbn [option_map] in E1. injection E1 as ->. cbn [obind fst snd].
      destruct (IH _ _ _ hw (JA (ja_num a) (ja_size a) (ja_oldhw a) (ja_hw a) true) HM1 ltac:(lia)) as (K' & j' & s' & a' & E & HM' & HK' & HL & Hs & Hr). exists K', j', s', a'. split; auto. split; auto. split; [lia|]. split; [|split].
      + eapply longer_trans; [|exact HL]. split; [reflexivity|]. cbn [astep x_slots]. eauto.
      + exact Hs.
      + intros n Hn. rewrite Hr; [|cbn [astep x_slots]; rewrite app_length; cbn [length]; lia]. apply (add_keeps crc K j s h subs text st j1 n Hcrc (made_rep crc K j s Hcrc HM) Ho ltac:(lia) Ea Hn).
    - cbn [fst]. destruct (IH _ _ _ hw (JA (ja_num a) (ja_size a) (ja_oldhw a) (ja_hw a) true) HM ltac:(cbn [opsize] in *; lia)) as (K' & j' & s' & a' & E & HM' & HK' & HL & Hs & Hr). exists K', j', s', a'. split; auto. split; auto. split; [cbn [opsize] in *; lia|]. auto.
  Qed.

  (** ** One message *)
  Lemma msgat_slot s n m : msgat s n = Some m <-> x_num s <= n /\ nth_error (x_slots s) (Z.to_nat (n - x_num s)) = Some (Some m).
  Proof using Type. clear Hcrc Hh. clear crc cfg fidodate handle lock now B. unfold msgat. destruct (Z.ltb_spec n (x_num s)); [split; [discriminate|lia]|]. destruct (nth_error _ _) as [[m'|]|]; split; try discriminate; try (intros [_ ?]; discriminate); intros E; [split; [auto|congruence]|]. destruct E. congruence. Qed.
  Lemma msg_fine K j s n m : rep K j s -> nth_error (x_slots s) n = Some (Some m) -> msg_ok m.
  Proof. intros HR H. pose proof (rep_slot _ _ _ (Z.of_nat n) HR ltac:(lia)) as G. rewrite Nat2Z.id, H in G. apply G. Qed.
  Lemma as_sent_change t m h h0 : placeless h = a_hdr m -> h0 = with_sent h (Z.lor (if flag (jc_flags cfg) CFG_ALLOWKILLSENT && Z.testbit (h_attr h) 5 && jc_net cfg then Z.lor (h_attr h) MSG_DELETED else h_attr h) MSG_SENT) (u32 (u32 t - jc_off cfg)) ->
    MSG (with_layout h0 (h_sublen (a_hdr m)) 0 (h_txtlen (a_hdr m))) (a_subs m) (a_text m) = as_sent cfg t m.
  Proof.
    intros Ep ->. unfold as_sent, kills. rewrite <- Ep. unfold with_sent, placeless, with_layout. cbn [h_sig h_rev h_rsvd h_sublen h_times h_msgid h_reply h_replyto h_reply1st h_replynext h_written h_received h_processed h_num h_attr h_attr2 h_txtoff h_txtlen h_pw h_cost].
    f_equal. f_equal; [unfold u32; rewrite Zminus_mod_idemp_l; reflexivity|].
    change CFG_ALLOWKILLSENT with (2 ^ 25). rewrite flag_pow by lia. change MSG_SENT with (2 ^ 4). change MSG_DELETED with (2 ^ 31). rewrite <- !lor_setbit.
    destruct (Z.testbit (jc_flags cfg) 25), (Z.testbit (h_attr h) 5), (jc_net cfg); cbn [andb]; auto. rewrite <- !Z.lor_assoc. f_equal.
  Qed.
  Lemma export_waits K j s n hw a : jmade crc K j s -> ja_num a = x_num s -> x_num s <= n < nextnum s -> n < 4294967296 -> K + B < 4294967295 ->
    if waiting s n then exists m, msgat s n = Some m /\
      match jam_memmsg cfg fidodate false (a_hdr m) (a_subs m) (a_text m) with
      | None => jam_ExportJAMNum crc cfg fidodate handle lock now n false (JS j hw (Some a)) = JUB
      | Some (mm, _) => exists K' j' s' a', jmade crc K' j' s' /\ K' <= K + B /\ sameja a a' /\
          let done := jr_ok (handle n mm) && lock n in
          (exists s1, longer s s1 /\ s' = if done then AB (x_num s1) (x_active s') (setslot (n - x_num s) (Some (as_sent cfg (now n) m)) (x_slots s1)) else s1) /\
          jam_ExportJAMNum crc cfg fidodate handle lock now n false (JS j hw (Some a)) = (if done then JOk else JFalse) (JS j' hw (Some a')) (Some mm)
      end
    else jam_ExportJAMNum crc cfg fidodate handle lock now n false (JS j hw (Some a)) = JOk (JS j hw (Some a)) None.
  Proof.
    intros HM Ha Hn Hx HK. assert (HR := made_rep _ _ _ _ Hcrc HM). unfold nextnum in *. assert (Eu : forall b, ja_num b = x_num s -> u32 (n - ja_num b) = n - x_num s).
    { intros b ->. apply u32_id. destruct HR as (b0 & _ & _ & Hb & Hnum & _). destruct Hb as (_ & _ & F). repeat match goal with H : Forall _ (_ :: _) |- _ => inversion_clear H end. unfold is_u32 in *. lia. }
    unfold jam_ExportJAMNum. cbn [jam_getarea js_open js_base js_hw]. rewrite Eu by auto. unfold waiting. destruct (msgat s n) as [m|] eqn:Em.
    - apply msgat_slot in Em as [_ Em]. destruct (rep_full _ _ _ (n - x_num s) m HR ltac:(lia) Em) as (h & E1 & E2 & Ep). rewrite E1. rewrite (gone_placeless _ _ Ep). unfold waits. change MSG_LOCAL with (2 ^ 0). change MSG_SENT with (2 ^ 4). rewrite !flag_pow by lia.
      replace (h_attr h) with (h_attr (a_hdr m)) by (rewrite <- Ep; reflexivity). destruct (gone (a_hdr m)) eqn:Eg; cbn [negb andb]; rewrite ?andb_false_r; [reflexivity|]. rewrite andb_true_r.
      destruct (Z.testbit (h_attr (a_hdr m)) 0) eqn:El; cbn [negb andb orb]; [|rewrite orb_true_r; reflexivity]. rewrite orb_false_r. destruct (Z.testbit (h_attr (a_hdr m)) 4) eqn:Es; cbn [negb]; [reflexivity|].
      exists m. split; [reflexivity|]. assert (Et : (if h_txtlen h =? 0 then Good [] else JAM_ReadMsgText j (h_txtoff h) (h_txtlen h)) = Good (a_text m)).
      { destruct (Z.eqb_spec (h_txtlen h) 0) as [E0|]; auto. rewrite E0 in E2. exact E2. }
      rewrite Et. replace (jam_memmsg cfg fidodate false h (a_subs m) (a_text m)) with (jam_memmsg cfg fidodate false (a_hdr m) (a_subs m) (a_text m)) by (rewrite <- Ep; reflexivity).
      destruct (jam_memmsg cfg fidodate false (a_hdr m) (a_subs m) (a_text m)) as [[mm oa]|] eqn:Emm; [|reflexivity]. destruct (Hh n mm) as [F1 F2].
      destruct (imports_made _ F1 K j s hw a HM ltac:(lia)) as (K1 & j1 & s1 & a1 & Ei & HM1 & HK1 & HL & Hsa & Hro). rewrite Ei. destruct (jr_ok (handle n mm)); [|exists K1, j1, s1, a1; split; auto; split; [lia|]; split; auto; split; [|reflexivity]; exists s1; auto].
      cbn [jam_getarea js_open js_base js_hw]. destruct (lock n); [|exists K1, j1, s1, a1; split; auto; split; [lia|]; split; auto; split; [|reflexivity]; exists s1; auto]. cbn [andb].
      unfold jam_marksent. cbn [js_base js_hw js_open]. rewrite Eu by (destruct Hsa; congruence). assert (El1 : nth_error (x_slots s1) (Z.to_nat (n - x_num s)) = Some (Some m)).
      { destruct HL as (_ & new & ->). rewrite nth_error_app1; auto. apply nth_error_Some. congruence. }
      set (h0 := with_sent h _ _). assert (Fo : op_fine (Change (n - x_num s) h0)).
      { split; [lia|]. destruct (msg_fine _ _ _ _ _ HR Em) as (Hf & _). rewrite <- Ep in Hf. destruct Hf as (G1 & G2 & G3 & G4). repeat match goal with H : Forall _ (_ :: _) |- _ => inversion_clear H end. split; [exact G1|]. split; [exact G2|]. split; [exact G3|]. unfold h0, with_sent. cbn [h_times h_msgid h_reply h_replyto h_reply1st h_replynext h_written h_received h_processed h_num h_attr h_attr2 h_pw h_cost].
        repeat (apply Forall_cons; [auto; try apply u32_range|]); [|constructor]. change MSG_SENT with (2 ^ 4). change MSG_DELETED with (2 ^ 31). rewrite !lor_setbit. apply setbit_u32'; [lia|]. destruct (_ && _); auto. apply setbit_u32'; [lia|]. auto. }
      assert (Er : JAM_ReadOnlyHeader j1 (n - x_num s) = Good h) by (rewrite Hro by lia; eapply full_only; eauto).
      assert (Ej : jstep crc j1 (Change (n - x_num s) h0) = Some (snd (JAM_ChangeMsgHeader j1 (n - x_num s) h0))).
      { cbn [jstep]. rewrite Er. reflexivity. }
      assert (HM2 := made_op crc K1 j1 s1 _ _ HM1 Fo ltac:(cbn; lia) Ej). cbn [opsize] in HM2. rewrite Z.add_0_r in HM2. eexists K1, _, _, a1. split; [exact HM2|]. split; [lia|]. split; [exact Hsa|]. split; [|reflexivity]. exists s1. split; auto. cbn [astep]. unfold aread. rewrite El1. cbn [x_active]. f_equal. f_equal. f_equal.
      apply (as_sent_change (now n) m h h0 Ep). unfold h0. rewrite (memmsg_killsent _ _ _ _ _ _ _ _ Emm). rewrite <- Ep. reflexivity.
    - assert (E1 : JAM_ReadMsgHeader j (n - x_num s) = Some (Bad JAM_NO_MESSAGE) \/ exists c, JAM_ReadMsgHeader j (n - x_num s) = Some (Bad c)).
      { destruct (rep_read _ _ _ HR) as (b & _ & _ & _ & Hr). specialize (Hr (n - x_num s) ltac:(lia)). unfold aread in Hr. unfold msgat in Em. destruct (Z.ltb_spec n (x_num s)); [lia|]. destruct (nth_error _ _) as [[m|]|] eqn:En; [discriminate| |]; unfold read_message in Hr; destruct (JAM_ReadMsgHeader j (n - x_num s)) as [[[h subs]|c]|] eqn:E; try discriminate; eauto.
        - pose proof (rep_slot _ _ _ (n - x_num s) HR ltac:(lia)) as G. rewrite En in G. rewrite (full_only _ _ _ _ E) in G. discriminate.
        - pose proof (rep_slot _ _ _ (n - x_num s) HR ltac:(lia)) as G. rewrite En in G. rewrite (full_only _ _ _ _ E) in G. discriminate. }
      destruct E1 as [->|(c & ->)]; reflexivity.
  Qed.

  (** ** A range of numbers *)
  Lemma numbers_S a m : numbers a (a + Z.of_nat (S m)) = a :: numbers (a + 1) (a + 1 + Z.of_nat m).
  Proof using Type. clear Hcrc Hh. clear crc cfg fidodate handle lock now B.
    unfold numbers. replace (Z.to_nat (a + Z.of_nat (S m) - a)) with (S m) by lia. replace (Z.to_nat (a + 1 + Z.of_nat m - (a + 1))) with m by lia. cbn [seq map]. f_equal; [lia|]. rewrite <- seq_shift, map_map. apply map_ext. intros i. lia.
  Qed.
  Lemma numbers_in a b n : In n (numbers a b) <-> a <= n < b.
  Proof using Type. clear Hcrc Hh. clear crc cfg fidodate handle lock now B. unfold numbers. rewrite in_map_iff. split; [intros (i & <- & H); apply in_seq in H; lia|]. intros H. exists (Z.to_nat (n - a)). split; [lia|]. apply in_seq. lia. Qed.
  Definition slotat (s : abase) (n : Z) : option (option amsg) := nth_error (x_slots s) (Z.to_nat (n - x_num s)).
  Lemma nth_setslot n x l i : 0 <= n < Z.of_nat (length l) -> nth_error (setslot n x l) i = if (i =? Z.to_nat n)%nat then Some x else nth_error l i.
  Proof using Type. clear Hcrc Hh. clear crc cfg fidodate handle lock now B.
    intros Hn. unfold setslot. destruct (Nat.eqb_spec i (Z.to_nat n)) as [->|H].
    - rewrite nth_error_app2 by (rewrite firstn_length; lia). rewrite firstn_length, Nat.min_l by lia. rewrite Nat.sub_diag. reflexivity.
    - destruct (Nat.lt_ge_cases i (Z.to_nat n)).
      + rewrite nth_error_app1 by (rewrite firstn_length; lia). rewrite nth_error_firstn'. destruct (Nat.ltb_spec i (Z.to_nat n)); [reflexivity|lia].
      + rewrite nth_error_app2 by (rewrite firstn_length; lia). rewrite firstn_length, Nat.min_l by lia. destruct (i - Z.to_nat n)%nat as [|k] eqn:Ek; [lia|]. cbn [nth_error]. rewrite nth_error_skipn'. f_equal. lia.
  Qed.
  Lemma setslot_length n x l : 0 <= n < Z.of_nat (length l) -> length (setslot n x l) = length l.
  Proof using Type. clear Hcrc Hh. clear crc cfg fidodate handle lock now B. intros Hn. unfold setslot. rewrite app_length, firstn_length. cbn [length]. rewrite skipn_length. lia. Qed.
  Definition done (p : Z * memmsg) : bool := jr_ok (handle (fst p) (snd p)) && lock (fst p).
  (** what a step and a scan do to the slots *)
  Definition scanned (s s' : abase) (out : list (Z * memmsg)) : Prop :=
    x_num s' = x_num s /\ (length (x_slots s) <= length (x_slots s'))%nat /\
    (forall n, x_num s <= n < nextnum s -> ~ In n (map fst out) -> slotat s' n = slotat s n) /\
    (forall n mm, In (n, mm) out -> x_num s <= n < nextnum s /\ exists m oa, msgat s n = Some m /\ waits m = true /\ jam_memmsg cfg fidodate false (a_hdr m) (a_subs m) (a_text m) = Some (mm, oa) /\
       slotat s' n = if done (n, mm) then Some (Some (as_sent cfg (now n) m)) else slotat s n).
  Lemma longer_slot s s1 n : longer s s1 -> x_num s <= n < nextnum s -> slotat s1 n = slotat s n.
  Proof using Type. clear Hcrc Hh. clear crc cfg fidodate handle lock now B. unfold nextnum. intros (E & new & El) Hn. unfold slotat. rewrite E, El, nth_error_app1; auto. lia. Qed.
  Lemma longer_length s s1 : longer s s1 -> (length (x_slots s) <= length (x_slots s1))%nat.
  Proof using Type. clear Hcrc Hh. clear crc cfg fidodate handle lock now B. intros (_ & new & ->). rewrite app_length. lia. Qed.
  Lemma scanned_nil s : scanned s s [].
  Proof. repeat split; auto; contradiction. Qed.
  Lemma msgat_slotat s n m : x_num s <= n -> msgat s n = Some m <-> slotat s n = Some (Some m).
  Proof using Type. clear Hcrc Hh. clear crc cfg fidodate handle lock now B. intros H. rewrite msgat_slot. unfold slotat. tauto. Qed.
  Lemma scanned_one s s1 s' n m mm oa : longer s s1 -> x_num s <= n < nextnum s -> msgat s n = Some m -> waits m = true -> jam_memmsg cfg fidodate false (a_hdr m) (a_subs m) (a_text m) = Some (mm, oa) ->
    s' = (if done (n, mm) then AB (x_num s1) (x_active s') (setslot (n - x_num s) (Some (as_sent cfg (now n) m)) (x_slots s1)) else s1) -> scanned s s' [(n, mm)].
  Proof.
    intros HL Hn Hm Hw Emm Es. pose proof (longer_length _ _ HL) as Hlen. unfold nextnum in Hn. destruct (done (n, mm)) eqn:Ed.
    - rewrite Es. destruct HL as (E1 & new & E2). split; [exact E1|]. cbn [x_slots]. split; [rewrite setslot_length by lia; lia|]. assert (G : forall k, x_num s <= k < nextnum s -> slotat (AB (x_num s1) (x_active s') (setslot (n - x_num s) (Some (as_sent cfg (now n) m)) (x_slots s1))) k = if k =? n then Some (Some (as_sent cfg (now n) m)) else slotat s k).
      { intros k Hk. unfold nextnum in Hk. unfold slotat. cbn [x_num x_slots]. rewrite nth_setslot by lia. rewrite E1. destruct (Nat.eqb_spec (Z.to_nat (k - x_num s)) (Z.to_nat (n - x_num s))), (Z.eqb_spec k n); try lia; [reflexivity|]. rewrite E2, nth_error_app1 by lia. reflexivity. }
      split.
      + intros k Hk Hnin. rewrite G by auto. destruct (Z.eqb_spec k n) as [->|]; [|reflexivity]. exfalso. apply Hnin. left. reflexivity.
      + intros k mm' [E|[]]. injection E as <- <-. split; [exact Hn|]. exists m, oa. rewrite Ed, G by (unfold nextnum; lia). rewrite Z.eqb_refl. auto.
    - rewrite Es. split; [apply HL|]. split; [exact Hlen|]. split; [intros k Hk _; apply longer_slot; auto|]. intros k mm' [E|[]]. injection E as <- <-. split; [exact Hn|]. exists m, oa. rewrite Ed. split; auto. split; auto. split; auto. apply longer_slot; auto.
  Qed.
  Lemma scanned_app s s1 s2 out1 out2 : scanned s s1 out1 -> scanned s1 s2 out2 -> (forall n, In n (map fst out1) -> ~ In n (map fst out2)) -> (forall n, In n (map fst out2) -> n < nextnum s) -> scanned s s2 (out1 ++ out2).
  Proof.
    intros (A1 & A2 & A3 & A4) (B1 & B2 & B3 & B4) Hd Hl. assert (Hx : forall n, x_num s <= n < nextnum s -> x_num s1 <= n < nextnum s1) by (unfold nextnum; lia). split; [congruence|]. split; [lia|]. split.
    - intros n Hn Hnin. rewrite map_app, in_app_iff in Hnin. rewrite B3 by auto. apply A3; auto.
    - intros n mm H. apply in_app_or in H as [H|H].
      + destruct (A4 _ _ H) as (Hn & m & oa & E1 & E2 & E3 & E4). split; auto. exists m, oa. split; auto. split; auto. split; auto. rewrite B3; auto. apply Hd. apply (in_map fst) in H. exact H.
      + destruct (B4 _ _ H) as (Hn & m & oa & E1 & E2 & E3 & E4). assert (Hin := in_map fst _ _ H). cbn [fst] in Hin. assert (Hn' : x_num s <= n < nextnum s) by (specialize (Hl n Hin); lia). assert (Hs : slotat s1 n = slotat s n) by (apply A3; auto; intros Hc; exact (Hd _ Hc Hin)).
        split; auto. exists m, oa. split; [|rewrite Hs in E4; auto]. apply msgat_slotat; [lia|]. rewrite <- Hs. apply msgat_slotat; auto. lia.
  Qed.
  Lemma waiting_slot s n s1 : x_num s1 = x_num s -> x_num s <= n -> slotat s1 n = slotat s n -> waiting s1 n = waiting s n.
  Proof using Type. clear Hcrc Hh. clear crc cfg fidodate handle lock now B.
    intros Ex Hn E. unfold waiting. destruct (msgat s1 n) as [m|] eqn:E1.
    - apply msgat_slotat in E1; [|lia]. rewrite E in E1. apply msgat_slotat in E1; [|lia]. rewrite E1. reflexivity.
    - destruct (msgat s n) as [m|] eqn:E2; [|reflexivity]. apply msgat_slotat in E2; [|lia]. rewrite <- E in E2. apply msgat_slotat in E2; [|lia]. congruence.
  Qed.
  Lemma B_nonneg : 0 <= B.
  Proof. destruct (Hh 0 mm0) as [_ H]. pose proof (impsizes_nonneg crc cfg (jr_imports (handle 0 mm0))). lia. Qed.
  Lemma loop_scan ctrlc more : forall start K j s hw a st' out ok, jmade crc K j s -> ja_num a = x_num s -> x_num s <= start -> start + Z.of_nat more <= nextnum s -> start + Z.of_nat more <= 4294967296 -> K + B * Z.of_nat more < 4294967295 ->
    jamloop crc cfg fidodate handle lock now more ctrlc false start (JS j hw (Some a)) = Some (st', out, ok) ->
    exists K' j' s' a' rest, st' = JS j' hw (Some a') /\ jmade crc K' j' s' /\ K' <= K + B * Z.of_nat more /\ sameja a a' /\ scanned s s' out /\
      filter (waiting s) (numbers start (start + Z.of_nat more)) = map fst out ++ rest /\ (ok = true -> rest = [] /\ forallb done out = true) /\
      (forall pre x, out = pre ++ [x] -> forallb done pre = true) /\
      ((forall n, ctrlc n = false) -> ok = forallb done out).
  Proof.
    induction more as [|more IH]; intros start K j s hw a st' out ok HM Ha Hst Hend Hend' HK E; cbn [jamloop] in E.
    { injection E as <- <- <-. exists K, j, s, a, []. split; auto. split; auto. split; [lia|]. split; [apply sameja_refl|]. split; [apply scanned_nil|]. replace (start + Z.of_nat 0) with start by lia. unfold numbers. rewrite Z.sub_diag. split; [reflexivity|]. split; [auto|]. split; [intros pre x Ho; destruct pre; discriminate|]. intros ->. reflexivity. }
    pose proof B_nonneg as HB0. destruct (ctrlc start) eqn:Ec.
    { injection E as <- <- <-. exists K, j, s, a, (filter (waiting s) (numbers start (start + Z.of_nat (S more)))). split; auto. split; auto. split; [lia|]. split; [apply sameja_refl|]. split; [apply scanned_nil|]. split; [reflexivity|]. split; [discriminate|]. split; [intros pre x Ho; destruct pre; discriminate|]. intros H. congruence. }
    assert (HKB : K + B < 4294967295) by nia. rewrite numbers_S. cbn [filter].
    pose proof (export_waits K j s start hw a HM Ha ltac:(lia) ltac:(lia) HKB) as X. destruct (waiting s start) eqn:Ew.
    - destruct X as (m & Hm & X). destruct (jam_memmsg cfg fidodate false (a_hdr m) (a_subs m) (a_text m)) as [[mm oa]|] eqn:Emm; [|rewrite X in E; discriminate].
      destruct X as (K1 & j1 & s1 & a1 & HM1 & HK1 & Hsa & (s0 & HL & Es) & X). cbv zeta in X, Es. rewrite X in E. change (jr_ok (handle start mm) && lock start) with (done (start, mm)) in *.
      assert (Hw : waits m = true) by (unfold waiting in Ew; rewrite Hm in Ew; exact Ew). pose proof (scanned_one s s0 s1 start m mm oa HL ltac:(lia) Hm Hw Emm Es) as Hsc. destruct (done (start, mm)) eqn:Ed.
      + destruct (jamloop crc cfg fidodate handle lock now more ctrlc false (start + 1) (JS j1 hw (Some a1))) as [[[st2 out2] ok2]|] eqn:E2; cbn [obind] in E; [|discriminate]. injection E as <- <- <-.
        assert (Hsc0 := Hsc). destruct Hsc0 as (S1 & S2 & S3 & S4).
        destruct (IH (start + 1) K1 j1 s1 hw a1 st2 out2 ok2 HM1 ltac:(destruct Hsa; congruence) ltac:(lia) ltac:(unfold nextnum in *; lia) ltac:(lia) ltac:(nia) E2) as (K' & j' & s' & a' & rest & Est & HM' & HK' & Hsa' & Hsc' & Hf & Hok & Hpre & Hct).
        exists K', j', s', a', rest. split; auto. split; auto. split; [nia|]. split; [eapply sameja_trans; eauto|].
        assert (Hf' : filter (waiting s) (numbers (start + 1) (start + 1 + Z.of_nat more)) = map fst out2 ++ rest).
        { rewrite <- Hf. apply filter_ext_in. intros n Hn. apply numbers_in in Hn. symmetry. apply waiting_slot; auto; [lia|]. apply S3; [unfold nextnum in *; lia|]. intros [Hc|[]]. cbn in Hc. lia. }
        assert (Hin : forall n, In n (map fst out2) -> start + 1 <= n < start + 1 + Z.of_nat more).
        { intros n Hn. assert (Hn' : In n (filter (waiting s) (numbers (start + 1) (start + 1 + Z.of_nat more)))) by (rewrite Hf'; apply in_or_app; auto). apply filter_In in Hn' as [Hn' _]. apply numbers_in in Hn'. exact Hn'. }
        split; [change ((start, mm) :: out2) with ([(start, mm)] ++ out2); eapply scanned_app; eauto|].
        { intros n [Hc|[]] Hn. cbn in Hc. apply Hin in Hn. lia. }
        { intros n Hn. apply Hin in Hn. unfold nextnum in *. lia. }
        split; [cbn [map fst app]; f_equal; exact Hf'|]. split; [cbn [forallb]; rewrite Ed; exact Hok|]. split.
        * intros pre x Ho. destruct pre as [|y pre]; [reflexivity|]. cbn [app] in Ho. injection Ho as <- Ho. cbn [forallb]. rewrite Ed. eapply Hpre; eauto.
        * intros Hc. cbn [forallb]. rewrite Ed. apply Hct; auto.
      + injection E as <- <- <-. exists K1, j1, s1, a1. eexists. split; [reflexivity|]. split; auto. split; [nia|]. split; auto. split; [exact Hsc|]. split; [cbn [map fst app]; reflexivity|]. split; [discriminate|]. split.
        * intros pre x Ho. destruct pre as [|y [|]]; [reflexivity|discriminate|discriminate].
        * intros _. cbn [forallb]. rewrite Ed. reflexivity.
    - rewrite X in E. destruct (jamloop crc cfg fidodate handle lock now more ctrlc false (start + 1) (JS j hw (Some a))) as [[[st2 out2] ok2]|] eqn:E2; cbn [obind] in E; [|discriminate]. injection E as <- <- <-.
      destruct (IH (start + 1) K j s hw a st2 out2 ok2 HM Ha ltac:(lia) ltac:(unfold nextnum in *; lia) ltac:(lia) ltac:(nia) E2) as (K' & j' & s' & a' & rest & Est & HM' & HK' & Hrest). exists K', j', s', a', rest. split; auto. split; auto. split; [nia|]. exact Hrest.
  Qed.

  (** ** Rescanning *)
  Definition there (s : abase) (n : Z) : bool := match msgat s n with Some m => negb (gone (a_hdr m)) | None => false end.
  Lemma export_resc K j s n hw a : jmade crc K j s -> ja_num a = x_num s -> x_num s <= n < nextnum s -> n < 4294967296 -> K + B < 4294967295 ->
    if there s n then exists m, msgat s n = Some m /\
      match jam_memmsg cfg fidodate true (a_hdr m) (a_subs m) (a_text m) with
      | None => jam_ExportJAMNum crc cfg fidodate handle lock now n true (JS j hw (Some a)) = JUB
      | Some (mm, _) => exists K' j' s' a', jmade crc K' j' s' /\ K' <= K + B /\ sameja a a' /\ longer s s' /\
          jam_ExportJAMNum crc cfg fidodate handle lock now n true (JS j hw (Some a)) = (if jr_ok (handle n mm) then JOk else JFalse) (JS j' hw (Some a')) (Some mm)
      end
    else jam_ExportJAMNum crc cfg fidodate handle lock now n true (JS j hw (Some a)) = JOk (JS j hw (Some a)) None.
  Proof.
    intros HM Ha Hn Hx HK. assert (HR := made_rep _ _ _ _ Hcrc HM). unfold nextnum in *. assert (Eu : forall b, ja_num b = x_num s -> u32 (n - ja_num b) = n - x_num s).
    { intros b ->. apply u32_id. destruct HR as (b0 & _ & _ & Hb & Hnum & _). destruct Hb as (_ & _ & F). repeat match goal with H : Forall _ (_ :: _) |- _ => inversion_clear H end. unfold is_u32 in *. lia. }
    unfold jam_ExportJAMNum. cbn [jam_getarea js_open js_base js_hw]. rewrite Eu by auto. unfold there. destruct (msgat s n) as [m|] eqn:Em.
    - apply msgat_slot in Em as [_ Em]. destruct (rep_full _ _ _ (n - x_num s) m HR ltac:(lia) Em) as (h & E1 & E2 & Ep). rewrite E1. rewrite (gone_placeless _ _ Ep).
      destruct (gone (a_hdr m)) eqn:Eg; cbn [negb andb]; [reflexivity|].
      exists m. split; [reflexivity|]. assert (Et : (if h_txtlen h =? 0 then Good [] else JAM_ReadMsgText j (h_txtoff h) (h_txtlen h)) = Good (a_text m)).
      { destruct (Z.eqb_spec (h_txtlen h) 0) as [E0|]; auto. rewrite E0 in E2. exact E2. }
      rewrite Et. replace (jam_memmsg cfg fidodate true h (a_subs m) (a_text m)) with (jam_memmsg cfg fidodate true (a_hdr m) (a_subs m) (a_text m)) by (rewrite <- Ep; reflexivity).
      destruct (jam_memmsg cfg fidodate true (a_hdr m) (a_subs m) (a_text m)) as [[mm oa]|] eqn:Emm; [|reflexivity]. destruct (Hh n mm) as [F1 F2].
      destruct (imports_made _ F1 K j s hw a HM ltac:(lia)) as (K1 & j1 & s1 & a1 & Ei & HM1 & HK1 & HL & Hsa & Hro). rewrite Ei. exists K1, j1, s1, a1. split; auto. split; [lia|]. split; auto. split; auto. destruct (jr_ok (handle n mm)); reflexivity.
    - assert (E1 : exists c, JAM_ReadMsgHeader j (n - x_num s) = Some (Bad c)).
      { destruct (rep_read _ _ _ HR) as (b & _ & _ & _ & Hr). specialize (Hr (n - x_num s) ltac:(lia)). unfold aread in Hr. unfold msgat in Em. destruct (Z.ltb_spec n (x_num s)); [lia|]. destruct (nth_error _ _) as [[m|]|] eqn:En; [discriminate| |]; unfold read_message in Hr; destruct (JAM_ReadMsgHeader j (n - x_num s)) as [[[h subs]|c]|] eqn:E; try discriminate; eauto.
        - pose proof (rep_slot _ _ _ (n - x_num s) HR ltac:(lia)) as G. rewrite En in G. rewrite (full_only _ _ _ _ E) in G. discriminate.
        - pose proof (rep_slot _ _ _ (n - x_num s) HR ltac:(lia)) as G. rewrite En in G. rewrite (full_only _ _ _ _ E) in G. discriminate. }
      destruct E1 as (c & ->); reflexivity.
  Qed.
  Lemma longer_msgat s s1 n : longer s s1 -> n < nextnum s -> msgat s1 n = msgat s n.
  Proof using Type. clear Hcrc Hh. clear crc cfg fidodate handle lock now B. intros (E & new & El) Hn. unfold nextnum in Hn. unfold msgat. rewrite E, El. destruct (Z.ltb_spec n (x_num s)); [reflexivity|]. rewrite nth_error_app1; auto. lia. Qed.
  Lemma loop_resc ctrlc more : forall start K j s hw a st' out ok, jmade crc K j s -> ja_num a = x_num s -> x_num s <= start -> start + Z.of_nat more <= nextnum s -> start + Z.of_nat more <= 4294967296 -> K + B * Z.of_nat more < 4294967295 ->
    jamloop crc cfg fidodate handle lock now more ctrlc true start (JS j hw (Some a)) = Some (st', out, ok) ->
    exists K' j' s' a' rest, st' = JS j' hw (Some a') /\ jmade crc K' j' s' /\ K' <= K + B * Z.of_nat more /\ sameja a a' /\ longer s s' /\
      (forall n mm, In (n, mm) out -> exists m oa, msgat s n = Some m /\ gone (a_hdr m) = false /\ jam_memmsg cfg fidodate true (a_hdr m) (a_subs m) (a_text m) = Some (mm, oa)) /\
      filter (there s) (numbers start (start + Z.of_nat more)) = map fst out ++ rest /\ (ok = true -> rest = []) /\
      ((forall n, ctrlc n = false) -> (forall n mm, In (n, mm) out -> jr_ok (handle n mm) = true) -> ok = true).
  Proof.
    induction more as [|more IH]; intros start K j s hw a st' out ok HM Ha Hst Hend Hend' HK E; cbn [jamloop] in E.
    { injection E as <- <- <-. exists K, j, s, a, []. split; auto. split; auto. split; [lia|]. split; [apply sameja_refl|]. split; [apply longer_refl|]. replace (start + Z.of_nat 0) with start by lia. unfold numbers. rewrite Z.sub_diag. split; [contradiction|]. split; [reflexivity|]. split; [auto|]. intros -> _. reflexivity. }
    pose proof B_nonneg as HB0. destruct (ctrlc start) eqn:Ec.
    { injection E as <- <- <-. exists K, j, s, a, (filter (there s) (numbers start (start + Z.of_nat (S more)))). split; auto. split; auto. split; [lia|]. split; [apply sameja_refl|]. split; [apply longer_refl|]. split; [contradiction|]. split; [reflexivity|]. split; [discriminate|]. intros H. congruence. }
    assert (HKB : K + B < 4294967295) by nia. rewrite numbers_S. cbn [filter].
    pose proof (export_resc K j s start hw a HM Ha ltac:(lia) ltac:(lia) HKB) as X. destruct (there s start) eqn:Ew.
    - destruct X as (m & Hm & X). assert (Hg : gone (a_hdr m) = false) by (unfold there in Ew; rewrite Hm in Ew; apply negb_true_iff; exact Ew). destruct (jam_memmsg cfg fidodate true (a_hdr m) (a_subs m) (a_text m)) as [[mm oa]|] eqn:Emm; [|rewrite X in E; discriminate].
      destruct X as (K1 & j1 & s1 & a1 & HM1 & HK1 & Hsa & HL & X). rewrite X in E. destruct (jr_ok (handle start mm)) eqn:Ed.
      + destruct (jamloop crc cfg fidodate handle lock now more ctrlc true (start + 1) (JS j1 hw (Some a1))) as [[[st2 out2] ok2]|] eqn:E2; cbn [obind] in E; [|discriminate]. injection E as <- <- <-. pose proof (longer_length _ _ HL) as Hlen. assert (Hx := proj1 HL).
        destruct (IH (start + 1) K1 j1 s1 hw a1 st2 out2 ok2 HM1 ltac:(destruct Hsa; congruence) ltac:(lia) ltac:(unfold nextnum in *; lia) ltac:(lia) ltac:(nia) E2) as (K' & j' & s' & a' & rest & Est & HM' & HK' & Hsa' & HL' & Hin & Hf & Hok & Hct).
        exists K', j', s', a', rest. split; auto. split; auto. split; [nia|]. split; [eapply sameja_trans; eauto|]. split; [eapply longer_trans; eauto|].
        assert (Hf' : filter (there s) (numbers (start + 1) (start + 1 + Z.of_nat more)) = map fst out2 ++ rest).
        { rewrite <- Hf. apply filter_ext_in. intros n Hn. apply numbers_in in Hn. unfold there. rewrite (longer_msgat s s1); auto. unfold nextnum in *. lia. }
        split; [|split; [cbn [map fst app]; f_equal; exact Hf'|]; split; [exact Hok|]; intros Hc Hj; apply Hct; auto; intros n mm' H; apply Hj; right; auto].
        intros n mm' [H|H]; [injection H as <- <-; eauto|]. assert (Hn : In n (filter (there s) (numbers (start + 1) (start + 1 + Z.of_nat more)))) by (rewrite Hf'; apply in_or_app; left; apply (in_map fst) in H; exact H). apply filter_In in Hn as [Hn _]. apply numbers_in in Hn. rewrite <- (longer_msgat s s1) by (auto; unfold nextnum in *; lia). apply Hin. auto.
      + injection E as <- <- <-. exists K1, j1, s1, a1. eexists. split; [reflexivity|]. split; auto. split; [nia|]. split; auto. split; [exact HL|]. split; [|split; [cbn [map fst app]; reflexivity|]; split; [discriminate|]; intros _ H; specialize (H start mm (or_introl eq_refl)); congruence].
        intros n mm' [H|[]]. injection H as <- <-. eauto.
    - rewrite X in E. destruct (jamloop crc cfg fidodate handle lock now more ctrlc true (start + 1) (JS j hw (Some a))) as [[[st2 out2] ok2]|] eqn:E2; cbn [obind] in E; [|discriminate]. injection E as <- <- <-.
      destruct (IH (start + 1) K j s hw a st2 out2 ok2 HM Ha ltac:(lia) ltac:(unfold nextnum in *; lia) ltac:(lia) ltac:(nia) E2) as (K' & j' & s' & a' & rest & Est & HM' & HK' & Hrest). exists K', j', s', a', rest. split; auto. split; auto. split; [nia|]. exact Hrest.
  Qed.

End Scan.
