(** Lemmas about *.MSG areas. *)
From Coq Require Import Sorting.Sorted.
From Verif Require Import Base M_Node4D M_Mem S_Mem P_Mem M_Cfg M_Str M_Fs P_Fs M_Pkt S_Pkt P_Pkt M_Net M_Echo M_Filter M_Msg S_Msg.

(** ** Bits and fields *)
Lemma flag_bit f k : 0 <= k -> flag f (2 ^ k) = Z.testbit f k.
Proof.
  intros Hk. unfold flag. destruct (Z.testbit f k) eqn:E.
  - apply negb_true_iff, Z.eqb_neq. intros H. apply (f_equal (fun z => Z.testbit z k)) in H.
    rewrite Z.land_spec, E, Z.pow2_bits_true, Z.bits_0 in H by lia. discriminate.
  - apply negb_false_iff, Z.eqb_eq. apply Z.bits_inj'. intros n Hn. rewrite Z.land_spec, Z.bits_0.
    destruct (Z.eq_dec n k) as [->|]; [rewrite E; auto|]. rewrite Z.pow2_bits_false by lia. apply andb_false_r.
Qed.
Lemma flag_sent f : flag f FLAG_SENT = Z.testbit f 3. Proof. apply (flag_bit f 3); lia. Qed.
Lemma flag_local f : flag f FLAG_LOCAL = Z.testbit f 8. Proof. apply (flag_bit f 8); lia. Qed.
Lemma flag_kill f : flag f FLAG_KILLSENT = Z.testbit f 7. Proof. apply (flag_bit f 7); lia. Qed.
Lemma flag_allowkill f : flag f CFG_ALLOWKILLSENT = Z.testbit f 25. Proof. apply (flag_bit f 25); lia. Qed.
Lemma flag_hw f : flag f CFG_MSG_HIGHWATER = Z.testbit f 1. Proof. apply (flag_bit f 1); lia. Qed.
Lemma flag_wb f : flag f CFG_MSG_WRITEBACK = Z.testbit f 2. Proof. apply (flag_bit f 2); lia. Qed.

Lemma get16_le16_mod v a b : get16 (a ++ le16 v ++ b) (length a) = v mod 65536.
Proof.
  rewrite get16_app. unfold get16, le16. cbn [nth app]. 
  pose proof (Z.div_mod v 256). pose proof (Z.div_mod (v / 256) 256). pose proof (Z.mod_pos_bound v 256). pose proof (Z.mod_pos_bound (v / 256) 256).
  replace 65536 with (256 * 256) by lia. rewrite Z.rem_mul_r by lia. lia.
Qed.
Lemma put16_length b i v : (i + 2 <= length b)%nat -> length (put16 b i v) = length b.
Proof. intros H. unfold put16. rewrite !app_length, firstn_length, skipn_length. cbn. lia. Qed.
Lemma put16_same b i v : (i + 2 <= length b)%nat -> get16 (put16 b i v) i = v mod 65536.
Proof.
  intros H. unfold put16. pose proof (get16_le16_mod v (firstn i b) (skipn (i + 2) b)) as E.
  rewrite firstn_length, Nat.min_l in E by lia. exact E.
Qed.
Lemma put16_nth b i v j : (i + 2 <= length b)%nat -> ~ (i <= j < i + 2)%nat -> nth j (put16 b i v) 0 = nth j b 0.
Proof.
  intros H Hj. unfold put16. destruct (Nat.lt_ge_cases j i).
  - rewrite app_nth1 by (rewrite firstn_length; lia).
    rewrite <- (firstn_skipn i b) at 2. rewrite app_nth1 by (rewrite firstn_length; lia). auto.
  - rewrite app_nth2 by (rewrite firstn_length; lia). rewrite firstn_length, Nat.min_l by lia.
    rewrite app_nth2 by (cbn; lia). cbn [length le16].
    replace (j - i - 2)%nat with (j - (i + 2))%nat by lia.
    rewrite <- (firstn_skipn (i + 2) b) at 2. rewrite (app_nth2 (firstn (i + 2) b)) by (rewrite firstn_length; lia).
    rewrite firstn_length, Nat.min_l by lia. auto.
Qed.
Lemma put16_get b i v j : (i + 2 <= length b)%nat -> (j + 2 <= i \/ i + 2 <= j)%nat -> get16 (put16 b i v) j = get16 b j.
Proof. intros H Hj. unfold get16. rewrite !put16_nth by lia. auto. Qed.
Lemma mod_bit v k : 0 <= k < 16 -> Z.testbit (v mod 65536) k = Z.testbit v k.
Proof. intros H. change 65536 with (2 ^ 16). apply Z.mod_pow2_bits_low. lia. Qed.

(** ** Names *)
Lemma msgname_inj a b : 0 <= a -> 0 <= b -> msgname a = msgname b -> a = b.
Proof. unfold msgname. intros Ha Hb E. apply app_inv_tail in E. apply dec_inj; auto. Qed.
Lemma atol_msgname n : is_u32 n -> atol (msgname n) = n.
Proof.
  intros [H1 H2]. unfold atol, msgname. rewrite atoi_digits.
  - rewrite dec_val_dec by lia. lia.
  - apply dec_digits; lia.
  - apply dec_nonempty; lia.
  - reflexivity.
Qed.
Lemma skipn_exact {A} (a b : list A) : skipn (length a) (a ++ b) = b.
Proof. rewrite skipn_app, skipn_all, Nat.sub_diag. reflexivity. Qed.
Lemma ismsg_spec name : ismsg name = true <-> exists p s, name = p ++ s /\ p <> [] /\ map tolower s = lit ".msg".
Proof.
  unfold ismsg. rewrite andb_true_iff, Nat.ltb_lt. unfold streqi. rewrite streq_eq.
  change (map tolower (lit ".msg")) with (lit ".msg"). split.
  - intros [H1 H2]. exists (firstn (length name - 4) name), (skipn (length name - 4) name).
    rewrite firstn_skipn. repeat split; auto. intros E. apply (f_equal (@length Z)) in E. rewrite firstn_length in E. cbn in E. lia.
  - intros (p & s & -> & Hp & Hs). pose proof (f_equal (@length Z) Hs) as Hl. rewrite map_length in Hl. cbn in Hl.
    rewrite app_length. destruct p as [|c p]; [contradiction|]. split; [cbn [length]; lia|].
    replace (length (c :: p) + length s - 4)%nat with (length (c :: p)) by lia. rewrite skipn_exact. auto.
Qed.
Lemma ismsg_msgname n : 0 <= n -> ismsg (msgname n) = true.
Proof. intros H. apply ismsg_spec. exists (dec n), (lit ".msg"). repeat split. apply dec_nonempty; auto. Qed.

(** ** Scanning the directory *)
Definition covers (dir : fsys) (h : Z) : Prop := forall n, is_u32 n -> osExists dir (msgname n) = true -> n <= h.
Definition above (dir : fsys) (l : Z) : Prop := forall n, 2 <= n -> is_u32 n -> osExists dir (msgname n) = true -> l <= n.
Definition okscan (names : list (list Z)) (st : Z * Z) : Prop :=
  let '(low, high) := st in
  0 <= high < 4294967295 /\ (low = 0 \/ 2 <= low < 4294967295) /\
  forall f, In f names -> ismsg f = true -> atol f <= high /\ (2 <= atol f -> low <> 0 /\ low <= atol f).
Lemma okscan_step names st f : okscan names st -> (ismsg f = true -> atol f < 4294967295) ->
  okscan (names ++ [f]) (msg_scandirfunc st f).
Proof.
  destruct st as [low high]. intros (H1 & H2 & H3) Hf. unfold msg_scandirfunc. destruct (ismsg f) eqn:E.
  - specialize (Hf eq_refl). set (n := atol f) in *. cbn zeta.
    assert (Hlow : low = 0 \/ 2 <= low) by lia.
    set (high' := if n >? high then u32 n else high).
    set (low' := if ((n <? low) || (low =? 0) || (low =? 1)) && (n >=? 2) then u32 n else low).
    assert (Hh : high' = Z.max high n).
    { unfold high'. destruct (Z.gtb_spec n high); [rewrite u32_id by (unfold is_u32; lia)|]; lia. }
    assert (Hl : (n < 2 /\ low' = low) \/ (2 <= n /\ (low = 0 /\ low' = n \/ low <> 0 /\ low' = Z.min low n))).
    { unfold low'. destruct (Z.ltb_spec n low), (Z.eqb_spec low 0), (Z.eqb_spec low 1), (Z.geb_spec n 2); cbn [orb andb]; try lia;
      rewrite u32_id by (unfold is_u32; lia); lia. }
    clearbody high' low'. split; [lia|]. split; [lia|]. intros g Hg Hm. apply in_app_or in Hg as [Hi|[<-|[]]].
    + destruct (H3 _ Hi Hm). lia.
    + fold n. lia.
  - split; [lia|]. split; [lia|]. intros g Hg Hm. apply in_app_or in Hg as [Hi|[<-|[]]]; [|congruence]. apply (H3 _ Hi Hm).
Qed.
Lemma okscan_all names : forall done_ st, okscan done_ st -> Forall (fun f => ismsg f = true -> atol f < 4294967295) names ->
  okscan (done_ ++ names) (fold_left msg_scandirfunc names st).
Proof.
  induction names as [|f r IH]; intros d st H Hf; [rewrite app_nil_r; auto|]. inversion Hf; subst. cbn [fold_left].
  replace (d ++ f :: r) with ((d ++ [f]) ++ r) by (rewrite <- app_assoc; auto). apply IH; auto. apply okscan_step; auto.
Qed.
Lemma scan_ok dir : sane dir -> let c := msg_GetHighLowMsg dir in
  covers dir (ca_high c) /\ above dir (ca_low c) /\ 1 <= ca_high c < 4294967295 /\ 2 <= ca_low c < 4294967295 /\ ca_hw c = 0 /\ ca_oldhw c = 0.
Proof.
  intros Hs c. unfold c, msg_GetHighLowMsg.
  pose proof (okscan_all (map fst dir) [] (0, 0)) as H. cbn [app] in H.
  destruct (fold_left msg_scandirfunc (map fst dir) (0, 0)) as [low high].
  destruct H as (H1 & H2 & H3).
  - split; [lia|]. split; [lia|]. intros f [].
  - apply Forall_forall. intros f Hf Hm. apply (Hs f (atol f) Hf). split; auto. apply ismsg_spec; auto.
  - assert (He : forall n, is_u32 n -> osExists dir (msgname n) = true -> n <= high /\ (2 <= n -> low <> 0 /\ low <= n)).
    { intros n Hn He. apply osExists_In in He. specialize (H3 _ He). rewrite atol_msgname in H3 by auto.
      apply H3. apply ismsg_msgname. destruct Hn; auto. }
    cbn [ca_high ca_low ca_hw ca_oldhw].
    set (h' := if high =? 0 then 1 else high). set (l' := if (low =? 0) || (low =? 1) then 2 else low).
    assert (Hh : h' = Z.max 1 high) by (unfold h'; destruct (Z.eqb_spec high 0); lia).
    assert (Hl : l' = Z.max 2 low) by (unfold l'; destruct (Z.eqb_spec low 0), (Z.eqb_spec low 1); cbn [orb]; lia).
    clearbody h' l'. repeat split; try lia.
    + intros k Hk Hx. destruct (He k Hk Hx). lia.
    + intros k Hk2 Hk Hx. destruct (He k Hk Hx). lia.
Qed.

(** ** Importing *)
Lemma osExists_false dir n : osExists dir n = false <-> fget dir n = None.
Proof. unfold osExists. destruct (fget dir n); split; congruence. Qed.
Lemma nextfree_spec fuel dir h k : nextfree fuel dir h = Some k -> is_u32 k /\ fget dir (msgname k) = None.
Proof.
  revert h. induction fuel as [|f IH]; intros h; cbn [nextfree]; [discriminate|]. cbn zeta.
  destruct (osExists dir (msgname (u32 (h + 1)))) eqn:E; [apply IH|].
  intros H; injection H as <-. split; [apply u32_range|]. apply osExists_false; auto.
Qed.
Lemma nextfree_covers f dir h : covers dir h -> 0 <= h < 4294967295 -> nextfree (S f) dir h = Some (h + 1).
Proof.
  intros Hc Hh. cbn [nextfree]. rewrite u32_id by (unfold is_u32; lia).
  destruct (osExists dir (msgname (h + 1))) eqn:E; auto. apply Hc in E; [lia|unfold is_u32; lia].
Qed.
Lemma setfield_length old s : length (setfield old s) = length old.
Proof. unfold setfield. rewrite firstn_length, app_length. cbn [length]. rewrite skipn_length. lia. Qed.
Lemma slice_length i n b : (i + n <= length b)%nat -> length (slice i n b) = n.
Proof. intros H. unfold slice. rewrite firstn_length, skipn_length. lia. Qed.
Lemma words_length ws : length (concat (map le16 ws)) = (2 * length ws)%nat.
Proof. induction ws; cbn [map concat]; auto. rewrite app_length, IHws. cbn. lia. Qed.
Lemma mkstored_length junk f t s d ws : length junk = 190%nat -> length ws = 13%nat -> length (mkstored junk f t s d ws) = 190%nat.
Proof.
  intros Hj Hw. unfold mkstored. rewrite !app_length, !setfield_length, !slice_length, words_length by lia. lia.
Qed.
Lemma mkstored_word junk f t s d ws i rest : length junk = 190%nat -> (i < length ws)%nat ->
  get16 (mkstored junk f t s d ws ++ rest) (164 + 2 * i) = nth i ws 0 mod 65536.
Proof.
  intros Hj Hi. unfold mkstored. rewrite !app_assoc.
  set (p := ((setfield (slice 0 36 junk) f ++ setfield (slice 36 36 junk) t) ++ setfield (slice 72 72 junk) s) ++ setfield (slice 144 20 junk) d).
  assert (Hp : length p = 164%nat) by (unfold p; rewrite !app_length, !setfield_length, !slice_length by lia; lia).
  clearbody p. destruct (nth_split ws 0 Hi) as (a & b & E & Ha). replace (concat (map le16 ws)) with (concat (map le16 (a ++ nth i ws 0 :: b))) by (rewrite <- E; auto).
  rewrite map_app, concat_app. cbn [map concat]. rewrite <- !app_assoc, (app_assoc p).
  replace (164 + 2 * i)%nat with (length (p ++ concat (map le16 a))) by (rewrite app_length, words_length; lia).
  apply get16_le16_mod.
Qed.
Lemma storedmsg_attr cfg junk mm b : length junk = 190%nat -> storedmsg cfg junk mm = Some b ->
  complete_hdr b /\ forall k, 0 <= k < 16 -> Z.testbit (attr_of b) k = Z.testbit (Attr mm) k.
Proof.
  intros Hj. unfold storedmsg. destruct (if flag _ _ && _ then mmMakeSeenByBuf (SeenBy mm) else Some []) as [sb|]; [|discriminate]. cbn [obind].
  intros H; injection H as <-. split.
  - unfold complete_hdr. rewrite app_length, mkstored_length by (auto; reflexivity). lia.
  - intros k Hk. unfold attr_of. change 186%nat with (164 + 2 * 11)%nat. rewrite mkstored_word by (auto; cbn; lia).
    apply mod_bit; auto.
Qed.
(** a prefix of a stored message waits only if it is a local message *)
Lemma prefix_waiting b k : waiting (firstn k b) -> waiting b.
Proof.
  unfold waiting, complete_hdr, is_local, is_sent, attr_of. intros (H1 & H2 & H3). rewrite firstn_length in H1.
  assert (E : get16 (firstn k b) 186 = get16 b 186).
  { unfold get16. rewrite <- (firstn_skipn k b) at 3 4. rewrite !(app_nth1 (firstn k b)) by (rewrite firstn_length; lia). auto. }
  rewrite E in *. repeat split; auto. lia.
Qed.
Definition grow (h : Z) (dir dir' : fsys) : Prop := forall name,
  match fget dir name with
  | Some b => fget dir' name = Some b
  | None => forall b, fget dir' name = Some b -> ~ waiting b /\ exists k, h < k /\ is_u32 k /\ name = msgname k
  end.
Lemma grow_refl h dir : grow h dir dir.
Proof. intros n. destruct (fget dir n) eqn:E; auto; congruence. Qed.
Lemma grow_trans h h' a b c : h <= h' -> grow h a b -> grow h' b c -> grow h a c.
Proof.
  intros Hh H1 H2 n. specialize (H1 n). specialize (H2 n). destruct (fget a n).
  - rewrite H1 in H2. auto.
  - destruct (fget b n) eqn:E.
    + intros x Hx. rewrite H2 in Hx. injection Hx as <-. apply H1; auto.
    + intros x Hx. destruct (H2 x Hx) as (A & k & B & C). split; auto. exists k. split; [lia|auto].
Qed.
Lemma writenew_other dir n data w m : n <> m -> fget (writenew dir n data w) m = fget dir m.
Proof. intros H. destruct w; cbn [writenew]; auto; apply fget_put_other; auto. Qed.
Lemma writenew_self dir n data w b : fget dir n = None -> fget (writenew dir n data w) n = Some b -> exists k, b = firstn k data.
Proof.
  intros H. destruct w; cbn [writenew]; rewrite ?fget_put_same; try congruence.
  - intros E; injection E as <-. exists (length data). symmetry. apply firstn_all.
  - intros E; injection E as <-. eauto.
Qed.
Lemma covers_writenew dir h k data w : covers dir h -> h <= k -> 0 <= k -> covers (writenew dir (msgname k) data w) k.
Proof.
  intros Hc Hk H0 n Hn. unfold osExists. destruct (Z.eq_dec n k) as [->|Hd]; [lia|].
  rewrite writenew_other by (intros E; apply Hd; symmetry; apply msgname_inj; unfold is_u32 in *; lia || auto).
  intros H. apply Hc in H; auto. lia.
Qed.
Lemma import_spec cfg i s s' ok c : msg_importfunc cfg i s = Some (s', ok) -> msg_getarea s = c -> imp_ok i ->
  covers (ms_dir s) (ca_high c) -> 0 <= ca_high c < 4294967295 ->
  ms_open s' = Some (CA (ca_low c) (ca_high c + 1) (ca_oldhw c) (ca_hw c)) /\
  covers (ms_dir s') (ca_high c + 1) /\ grow (ca_high c) (ms_dir s) (ms_dir s').
Proof.
  unfold msg_importfunc. intros H <- [Hj Ha] Hc Hh. set (c := msg_getarea s) in *. rewrite nextfree_covers in H by auto. cbn [obind] in H.
  unfold msg_WriteMSG in H. destruct (storedmsg cfg (im_junk i) (im_mm i)) as [data|] eqn:E; [|discriminate]. cbn [obind option_map] in H.
  injection H as <- <-. cbn [ms_open ms_dir fst]. split; auto.
  assert (Hn : fget (ms_dir s) (msgname (ca_high c + 1)) = None).
  { apply osExists_false. destruct (osExists _ _) eqn:Ex; auto. apply Hc in Ex; [lia|unfold is_u32; lia]. }
  split; [apply (covers_writenew _ (ca_high c)); auto; lia|].
  intros name. destruct (list_eq_dec Z.eq_dec (msgname (ca_high c + 1)) name) as [<-|Hd].
  - rewrite Hn. intros b Hb. split; [|exists (ca_high c + 1); repeat split; lia]. apply writenew_self in Hb as [k ->]; auto. intros Hw. apply prefix_waiting in Hw as (_ & Hl & _).
    destruct (storedmsg_attr _ _ _ _ Hj E) as [_ Hx]. unfold is_local in Hl. rewrite Hx in Hl by lia. congruence.
  - rewrite writenew_other by auto. destruct (fget (ms_dir s) name) eqn:Ef; auto; congruence.
Qed.
Lemma imports_spec cfg l : forall s s' c, imports cfg l s = Some s' -> msg_getarea s = c -> ms_open s <> None -> Forall imp_ok l ->
  covers (ms_dir s) (ca_high c) -> 0 <= ca_high c -> ca_high c + Z.of_nat (length l) <= 4294967295 ->
  ms_open s' = Some (CA (ca_low c) (ca_high c + Z.of_nat (length l)) (ca_oldhw c) (ca_hw c)) /\
  covers (ms_dir s') (ca_high c + Z.of_nat (length l)) /\ grow (ca_high c) (ms_dir s) (ms_dir s').
Proof.
  induction l as [|i r IH]; intros s s' c H Hg Ho Hi Hc H0 Hm; cbn [imports] in H.
  - injection H as <-. cbn [length]. unfold msg_getarea in Hg. destruct (ms_open s) as [c'|]; [|contradiction]. subst c'.
    rewrite Z.add_0_r. split; [destruct c; auto|]. split; auto using grow_refl.
  - destruct (msg_importfunc cfg i s) as [[s1 ok]|] eqn:E; [|discriminate]. cbn [obind fst] in H. inversion Hi; subst.
    cbn [length] in *. destruct (import_spec _ _ _ _ _ _ E eq_refl) as (A & B & C); auto; [lia|].
    destruct (IH s1 s' (CA (ca_low (msg_getarea s)) (ca_high (msg_getarea s) + 1) (ca_oldhw (msg_getarea s)) (ca_hw (msg_getarea s)))) as (A' & B' & C'); cbn [ca_high ca_low ca_hw ca_oldhw]; auto; try lia.
    + unfold msg_getarea at 1. rewrite A. auto.
    + rewrite A. discriminate.
    + cbn [ca_high ca_low ca_hw ca_oldhw] in *. replace (ca_high (msg_getarea s) + Z.of_nat (S (length r))) with (ca_high (msg_getarea s) + 1 + Z.of_nat (length r)) by lia.
      repeat split; auto. eapply grow_trans; [|eauto|eauto]. lia.
Qed.

(** ** Reading a stored message *)
Lemma get16_firstn b n i : (S i < n)%nat -> (n <= length b)%nat -> get16 (firstn n b) i = get16 b i.
Proof.
  intros H1 H2. unfold get16. rewrite <- (firstn_skipn n b) at 3 4. rewrite !(app_nth1 (firstn n b)) by (rewrite firstn_length; lia). auto.
Qed.
Lemma readstored_spec dir n : match readstored dir n with
  | Some (h, t) => exists b, msgfile dir n = Some b /\ complete_hdr b /\ h = firstn 190 b /\ t = skipn 190 b
  | None => forall b, msgfile dir n = Some b -> ~ complete_hdr b
  end.
Proof.
  unfold readstored, msgfile, complete_hdr. fold (msgname n). destruct (fget dir (msgname n)) as [b|]; [|congruence].
  destruct (Nat.ltb_spec (length b) STOREDMSG); unfold STOREDMSG in *; [intros x E; injection E as <-; lia|]. exists b. auto.
Qed.
Lemma pending_spec b : complete_hdr b -> (pending (firstn 190 b) = true <-> waiting b).
Proof.
  intros Hb. unfold pending, waiting, is_sent, is_local, attr_of. unfold O_ATTR. unfold complete_hdr in *. rewrite get16_firstn by lia.
  rewrite flag_sent, flag_local, andb_true_iff, negb_true_iff. rewrite not_true_iff_false. tauto.
Qed.
Lemma ReadCR_progress n s l e r : ReadCR (S n) s = (l, e, r) -> e = CrLine \/ e = CrFull -> (length r < length s)%nat.
Proof.
  intros H He. destruct (ReadCR_inv _ _ _ _ _ H) as (_ & H1 & H2). specialize (H2 ltac:(discriminate) He).
  destruct He as [-> | ->]; subst s; rewrite app_length; destruct l; try contradiction; cbn; lia.
Qed.
Lemma frame_area m m' : P_Pkt.frame m' = P_Pkt.frame m -> Area m' = Area m.
Proof. unfold P_Pkt.frame. congruence. Qed.
Lemma addkludges_frame cfg resc hdr mm mm' zs : addkludges cfg resc hdr mm = Some (mm', zs) ->
  P_Pkt.frame mm' = P_Pkt.frame mm /\ (zs = true -> Area mm = []).
Proof.
  unfold addkludges. intros H.
  assert (Hl : forall (b : bool) m l m', (if b then mmAddLine m l else Some m) = Some m' -> P_Pkt.frame m' = P_Pkt.frame m).
  { intros b m l m' E. destruct b; [apply mmAddLine_frame in E; tauto|congruence]. }
  destruct (if flag _ _ && _ then mmAddLine mm TID else Some mm) as [m1|] eqn:E1; [|discriminate]. cbn [obind] in H.
  destruct (if resc then _ else Some m1) as [m2|] eqn:E2; [|discriminate]. cbn [obind] in H.
  apply Hl in E1, E2.
  destruct (Area m2) eqn:Ea; cbn [andb] in H.
  2: { injection H as <- <-. split; [congruence|discriminate]. }
  assert (Ha : Area mm = []) by (rewrite <- (frame_area _ _ E1), <- (frame_area _ _ E2); auto).
  destruct ((zone (DestNode m2) =? 0) || (zone (OrigNode m2) =? 0)).
  - destruct (if flag _ _ then _ else Some (set_zones m2 _)) as [m3|] eqn:E3; [|discriminate]. cbn [obind] in H.
    apply Hl in E3. injection H as <- <-. split; [|auto]. rewrite E3. change (P_Pkt.frame (set_zones m2 (zone (mc_aka cfg)))) with (P_Pkt.frame m2). congruence.
  - injection H as <- <-. split; [congruence|discriminate].
Qed.
Lemma exptext_ok cfg resc hdr : forall fuel kl zs mm s, (length s < fuel)%nat ->
  match exptext fuel cfg resc hdr kl zs mm s with
  | XOk mm' zs' => P_Pkt.frame mm' = P_Pkt.frame mm /\ (zs' = true -> zs = true \/ Area mm = [])
  | XUB => True
  | XFuel => False
  end.
Proof.
  induction fuel as [|f IH]; intros kl zs mm s Hs; [lia|]. cbn [exptext].
  destruct (ReadCR CRBUF s) as [[l e] r] eqn:E.
  set (first := negb kl && _). clearbody first.
  destruct (if first then addkludges cfg resc hdr mm else Some (mm, zs)) as [[m1 z1]|] eqn:E1; auto.
  assert (H1 : P_Pkt.frame m1 = P_Pkt.frame mm /\ (z1 = true -> zs = true \/ Area mm = [])).
  { destruct first; [apply addkludges_frame in E1; tauto|]. injection E1 as <- <-. tauto. }
  clear E1. destruct (match l with [] => Some m1 | _ :: _ => mmAddLine m1 l end) as [m2|] eqn:E2; auto.
  assert (H2 : P_Pkt.frame m2 = P_Pkt.frame m1) by (destruct l; [congruence|apply mmAddLine_frame in E2; tauto]).
  assert (Hn : e = CrLine \/ e = CrFull -> match exptext f cfg resc hdr (kl || first) z1 m2 r with
      | XOk mm' zs' => P_Pkt.frame mm' = P_Pkt.frame mm /\ (zs' = true -> zs = true \/ Area mm = []) | XUB => True | XFuel => False end).
  { intros He. pose proof (ReadCR_progress _ _ _ _ _ E He). specialize (IH (kl || first) z1 m2 r ltac:(lia)).
    destruct (exptext f cfg resc hdr (kl || first) z1 m2 r); auto. destruct IH as [A B]. split; [rewrite A, H2; apply H1|].
    intros Hz. destruct (B Hz) as [Hz'|Hz']; [apply H1; auto|]. right. rewrite <- Hz'. symmetry. apply frame_area. destruct H1; congruence. }
  destruct H1 as [A B]. destruct e; [apply Hn; auto|split; [rewrite H2; exact A|exact B]|split; [rewrite H2; exact A|exact B]|apply Hn; auto].
Qed.

(** ** Marking a message as sent *)
Lemma overlay_nth b h i : (length h <= length b)%nat -> nth i (overlay b h) 0 = if Nat.ltb i (length h) then nth i h 0 else nth i b 0.
Proof.
  intros H. unfold overlay. destruct (Nat.ltb_spec i (length h)).
  - apply app_nth1; auto.
  - rewrite app_nth2 by lia. rewrite <- (firstn_skipn (length h) b) at 2. rewrite (app_nth2 (firstn (length h) b)) by (rewrite firstn_length; lia).
    rewrite firstn_length, Nat.min_l by lia. auto.
Qed.
Definition nohandle (s : mst) := ms_open s <> None.
Lemma lor_bit v k : 0 <= k -> Z.testbit (Z.lor v FLAG_SENT) k = if k =? 3 then true else Z.testbit v k.
Proof.
  intros Hk. rewrite Z.lor_spec. change FLAG_SENT with (2 ^ 3). destruct (Z.eqb_spec k 3) as [->|H].
  - rewrite Z.pow2_bits_true by lia. apply orb_true_r.
  - rewrite Z.pow2_bits_false by lia. apply orb_false_r.
Qed.
Lemma sent_hdr b (zs : bool) z : complete_hdr b ->
  let hdr := firstn 190 b in
  let h1 := if zs then put16 (put16 hdr O_DESTZONE z) O_ORIGZONE z else hdr in
  let b' := overlay b (put16 h1 O_ATTR (Z.lor (get16 hdr O_ATTR) FLAG_SENT)) in
  complete_hdr b' /\ is_sent b' /\ sent_copy zs b b'.
Proof.
  intros Hb hdr h1 b'. unfold complete_hdr in Hb.
  assert (Lh : length hdr = 190%nat) by (unfold hdr; rewrite firstn_length; lia).
  assert (L1 : length h1 = 190%nat) by (unfold h1; destruct zs; rewrite ?put16_length; rewrite ?put16_length; unfold O_DESTZONE, O_ORIGZONE; lia).
  set (h2 := put16 h1 O_ATTR _) in b'.
  assert (L2 : length h2 = 190%nat) by (unfold h2; rewrite put16_length; unfold O_ATTR; lia).
  assert (Hl : length b' = length b) by (unfold b', overlay; rewrite app_length, skipn_length; lia).
  assert (Hat : forall k, 0 <= k < 16 -> Z.testbit (attr_of b') k = if k =? 3 then true else Z.testbit (attr_of b) k).
  { intros k Hk. unfold attr_of. replace (get16 b' 186) with (get16 h2 186).
    - unfold h2. change 186%nat with O_ATTR. rewrite put16_same by (unfold O_ATTR; lia). rewrite mod_bit by auto. rewrite lor_bit by lia.
      unfold hdr. rewrite get16_firstn by (unfold O_ATTR; lia). auto.
    - unfold b', get16. rewrite !overlay_nth by lia. rewrite L2. reflexivity. }
  unfold sent_copy, complete_hdr, is_sent. rewrite Hat by lia. repeat split; auto; [lia|].
  intros i Hi Hz. unfold b'. rewrite overlay_nth by lia. rewrite L2. destruct (Nat.ltb_spec i 190); auto.
  unfold h2. rewrite put16_nth by (unfold O_ATTR; lia).
  assert (Hh : nth i hdr 0 = nth i b 0).
  { unfold hdr. rewrite <- (firstn_skipn 190 b) at 2. rewrite (app_nth1 (firstn 190 b)) by (rewrite firstn_length; lia). auto. }
  rewrite <- Hh. unfold h1. destruct zs; auto. unfold O_DESTZONE, O_ORIGZONE in *.
  rewrite !put16_nth; rewrite ?put16_length; auto; try lia.
Qed.

Section Scan.
  Context (cfg : mcfg) (handle : Z -> memmsg -> hres) (mark : Z -> wres) (junk : list Z).
  Hypothesis Hmark : forall n, mark n = WOk.
  Hypothesis Hjunk : length junk = 190%nat.
  Hypothesis Htag : mc_tag cfg <> [].
  Hypothesis Himp : forall n mm, Forall imp_ok (hr_imports (handle n mm)).

  Lemma kills_spec b : complete_hdr b ->
    (flag (mc_flags cfg) CFG_ALLOWKILLSENT && flag (get16 (firstn 190 b) O_ATTR) FLAG_KILLSENT && mc_net cfg = true <-> kills cfg b).
  Proof.
    intros Hb. unfold complete_hdr in Hb. unfold kills, attr_of. change 186%nat with O_ATTR. rewrite get16_firstn by (unfold O_ATTR; lia).
    rewrite flag_allowkill, flag_kill, !andb_true_iff. tauto.
  Qed.
  Lemma marksent_spec num b zs mm s s' : marksent cfg mark junk num (firstn 190 b) zs mm s = Some s' ->
    msgfile (ms_dir s) num = Some b -> complete_hdr b -> (zs = true -> mc_net cfg = true) ->
    marked cfg b (msgfile (ms_dir s') num) /\
    (forall name, name <> msgname num -> fget (ms_dir s') name = fget (ms_dir s) name) /\
    exists c, ms_open s' = Some c /\ ca_low c = ca_low (msg_getarea s) /\ ca_high c = ca_high (msg_getarea s) /\
      ca_oldhw c = ca_oldhw (msg_getarea s) /\
      (ca_hw c = ca_hw (msg_getarea s) \/ (ca_hw c = num /\ msgfile (ms_dir s') num <> None)).
  Proof.
    unfold marksent. intros H Hf Hb Hz. cbn zeta in H. rewrite Hmark in H.
    destruct (flag (mc_flags cfg) CFG_ALLOWKILLSENT && flag (get16 (firstn 190 b) O_ATTR) FLAG_KILLSENT && mc_net cfg) eqn:Ek.
    - injection H as <-. cbn [ms_dir ms_open]. split; [|split].
      + left. split; [apply kills_spec; auto|]. unfold msgfile. fold (msgname num). apply fget_del_same.
      + intros name Hn. apply fget_del_other. auto.
      + exists (msg_getarea s). auto 6.
    - assert (Hk : ~ kills cfg b) by (intros Hx; apply (kills_spec b Hb) in Hx; congruence).
      destruct (flag (mc_mflags cfg) CFG_MSG_WRITEBACK) eqn:Ew.
      + unfold msg_WriteMSG in H. destruct (storedmsg cfg junk _) as [data|] eqn:Ed; [|discriminate]. cbn [option_map obind writenew] in H.
        injection H as <-. cbn [ms_dir ms_open fst]. destruct (storedmsg_attr _ _ _ _ Hjunk Ed) as [A B].
        assert (Hg : msgfile (fput (ms_dir s) (msgname num) data) num = Some data) by apply fget_put_same.
        split; [|split].
        * right. split; auto. exists data. rewrite Hg. split; auto. split; auto. split.
          -- unfold is_sent. rewrite B by lia. cbn [Attr set_Attr]. rewrite lor_bit by lia. auto.
          -- rewrite flag_wb in Ew. congruence.
        * intros name Hn. apply fget_put_other. auto.
        * eexists. split; [reflexivity|]. cbn [ca_low ca_high ca_oldhw ca_hw]. repeat split; auto. right. rewrite Hg. split; [auto|discriminate].
      + injection H as <-. cbn [ms_dir ms_open]. unfold writeover. unfold msgfile in Hf. fold (msgname num) in Hf. rewrite Hf.
        destruct (sent_hdr b zs (zone (mc_aka cfg)) Hb) as (A & B & C). cbn zeta in A, B, C.
        assert (Hg : forall data, msgfile (fput (ms_dir s) (msgname num) data) num = Some data) by (intros; apply fget_put_same).
        split; [|split].
        * right. split; auto. rewrite Hg. eexists. split; [reflexivity|]. split; auto. split; auto. intros _.
          destruct C as (C1 & C2 & C3). split; auto. split; auto. intros i Hi Hn. apply C3; auto. intros [Hx Hy]. apply Hn; auto.
        * intros name Hn. apply fget_put_other. auto.
        * eexists. split; [reflexivity|]. cbn [ca_low ca_high ca_oldhw ca_hw]. repeat split; auto. right. rewrite Hg. split; [auto|discriminate].
  Qed.

  (** the message made from a stored one *)
  Definition made (resc : bool) (b : list Z) (mm : memmsg) : Prop := exists m zs,
    exptext (S (length (skipn 190 b))) cfg resc (firstn 190 b) false false (exphdr cfg (firstn 190 b)) (skipn 190 b) = XOk m zs /\
    mm = set_Flags m (Z.lor (Flags m) (if resc then MMFLAG_RESCANNED else MMFLAG_EXPORTED)).

  Lemma export1_spec num s s' h c : msg_ExportMSGNum cfg handle mark junk num false s = EOk s' h ->
    ms_open s = Some c -> covers (ms_dir s) (ca_high c) -> 0 <= num <= ca_high c ->
    (match h with Some mm => ca_high c + Z.of_nat (length (hr_imports (handle num mm))) | None => 0 end) <= 4294967295 ->
    match h with
    | None => s' = s /\ ~ (exists b, msgfile (ms_dir s) num = Some b /\ waiting b)
    | Some mm => exists b c', msgfile (ms_dir s) num = Some b /\ waiting b /\ made false b mm /\ marked cfg b (msgfile (ms_dir s') num) /\
        (forall name, name <> msgname num -> match fget (ms_dir s) name with
           | Some b => fget (ms_dir s') name = Some b
           | None => forall b, fget (ms_dir s') name = Some b -> ~ waiting b /\ exists k, ca_high c < k /\ is_u32 k /\ name = msgname k
           end) /\
        ms_open s' = Some c' /\ ca_low c' = ca_low c /\ ca_high c' = ca_high c + Z.of_nat (length (hr_imports (handle num mm))) /\
        ca_oldhw c' = ca_oldhw c /\ covers (ms_dir s') (ca_high c') /\
        (ca_hw c' = ca_hw c \/ (ca_hw c' = num /\ msgfile (ms_dir s') num <> None))
    end.
  Proof.
    unfold msg_ExportMSGNum. intros H Ho Hc Hn Hm. cbn zeta in H. cbn [ms_dir] in H.
    assert (Hg : msg_getarea s = c) by (unfold msg_getarea; rewrite Ho; auto). rewrite Hg in H.
    assert (Hs : MS (ms_dir s) (Some c) = s) by (destruct s; cbn in *; congruence). rewrite Hs in H.
    pose proof (readstored_spec (ms_dir s) num) as Hr. destruct (readstored (ms_dir s) num) as [[hdr text]|].
    2: { injection H as <- <-. split; auto. intros (b & Hb & Hw & _). apply (Hr b Hb Hw). }
    destruct Hr as (b & Hb & Hcb & -> & ->). cbn [negb andb] in H.
    destruct (pending (firstn 190 b)) eqn:Ep; cbn [negb] in H.
    2: { injection H as <- <-. split; auto. intros (b' & Hb' & Hw). assert (b' = b) by congruence. subst b'.
         apply (pending_spec b Hcb) in Hw. congruence. }
    apply (pending_spec b Hcb) in Ep.
    pose proof (exptext_ok cfg false (firstn 190 b) (S (length (skipn 190 b))) false false (exphdr cfg (firstn 190 b)) (skipn 190 b) ltac:(lia)) as Hx.
    destruct (exptext (S (length (skipn 190 b))) cfg false (firstn 190 b) false false (exphdr cfg (firstn 190 b)) (skipn 190 b)) as [m zs| |] eqn:Ex; try discriminate.
    set (mm := set_Flags m (Z.lor (Flags m) MMFLAG_EXPORTED)) in *.
    destruct (imports cfg (hr_imports (handle num mm)) s) as [s1|] eqn:Ei; [|discriminate].
    destruct (hr_ok (handle num mm)); [|discriminate].
    destruct (marksent cfg mark junk num (firstn 190 b) zs (hr_mm (handle num mm)) s1) as [s2|] eqn:Es; [|discriminate].
    injection H as <- <-.
    destruct (imports_spec _ _ _ _ _ Ei Hg) as (A & B & C); auto; [congruence|lia|].
    assert (Hf1 : msgfile (ms_dir s1) num = Some b) by (specialize (C (msgname num)); unfold msgfile in *; fold (msgname num) in *; rewrite Hb in C; auto).
    destruct (marksent_spec _ _ _ _ _ _ Es Hf1 Hcb) as (D & E & c' & F1 & F2 & F3 & F4 & F5).
    { intros ->. destruct Hx as [_ Hx]. destruct (Hx eq_refl) as [Hy|Hy]; [discriminate|]. unfold exphdr in Hy. cbn [Area] in Hy.
      destruct (mc_net cfg); auto; contradiction. }
    assert (Hg1 : msg_getarea s1 = CA (ca_low c) (ca_high c + Z.of_nat (length (hr_imports (handle num mm)))) (ca_oldhw c) (ca_hw c)) by (unfold msg_getarea; rewrite A; auto).
    rewrite Hg1 in *. cbn [ca_low ca_high ca_oldhw ca_hw] in *.
    exists b, c'. split; auto. split; auto. split; [exists m, zs; auto|]. split; auto. split.
    - intros name Hd. specialize (C name). rewrite E by auto. auto.
    - repeat split; auto.
      intros n Hn' Hex. destruct (Z.eq_dec n num) as [->|Hd]; [lia|]. rewrite F3. apply B; auto.
      unfold osExists in *. rewrite E in Hex; auto. intros Hq. apply Hd. apply msgname_inj; auto; unfold is_u32 in *; lia.
  Qed.

  Lemma exploop_spec : forall fuel ctrlc start s s' out c,
    exploop cfg handle mark junk fuel ctrlc false start s = Some (s', out, true) ->
    ms_open s = Some c -> covers (ms_dir s) (ca_high c) -> 0 <= start <= 4294967295 -> 0 <= ca_high c ->
    ca_high c + nimports handle out < 4294967295 ->
    StronglySorted Z.lt (map fst out) /\ Forall (fun n => start <= n /\ is_u32 n) (map fst out) /\
    (forall n, is_u32 n -> start <= n -> (In n (map fst out) <-> exists b, msgfile (ms_dir s) n = Some b /\ waiting b)) /\
    (forall n mm, In (n, mm) out -> exists b, msgfile (ms_dir s) n = Some b /\ made false b mm) /\
    (forall n, In n (map fst out) -> exists b, msgfile (ms_dir s) n = Some b /\ marked cfg b (msgfile (ms_dir s') n)) /\
    (forall name, (forall n, In n (map fst out) -> name <> msgname n) ->
       match fget (ms_dir s) name with
       | Some b => fget (ms_dir s') name = Some b
       | None => forall b, fget (ms_dir s') name = Some b -> ~ waiting b /\ exists k, ca_high c < k /\ is_u32 k /\ name = msgname k
       end) /\
    exists c', ms_open s' = Some c' /\ ca_low c' = ca_low c /\ ca_high c' = ca_high c + nimports handle out /\ ca_oldhw c' = ca_oldhw c /\
      covers (ms_dir s') (ca_high c') /\ (ca_hw c' = ca_hw c \/ (In (ca_hw c') (map fst out) /\ msgfile (ms_dir s') (ca_hw c') <> None)).
  Proof.
    induction fuel as [|f IH]; intros ctrlc start s s' out c H Ho Hc Hst Hh Hm; [discriminate|]. cbn [exploop] in H.
    assert (Hg : msg_getarea s = c) by (unfold msg_getarea; rewrite Ho; auto). rewrite Hg in H.
    destruct (Z.leb_spec start (ca_high c)) as [Hle|Hgt].
    2: { injection H as <- <- _. cbn [map]. repeat split; try constructor; auto.
         - intros [].
         - intros (b & Hb & _). assert (Hex : osExists (ms_dir s) (msgname n) = true) by (unfold osExists; unfold msgfile in Hb; unfold msgname; rewrite Hb; auto).
           apply Hc in Hex; auto. unfold is_u32 in *. lia.
         - intros n mm [].
         - intros n [].
         - intros name _. destruct (fget (ms_dir s) name); auto. discriminate.
         - exists c. cbn [nimports fold_right]. rewrite Z.add_0_r. auto 8. }
    destruct (ctrlc start); [discriminate|].
    destruct (msg_ExportMSGNum cfg handle mark junk start false s) as [s1 h|s1 h|] eqn:E1; [|discriminate|discriminate].
    destruct (exploop cfg handle mark junk f ctrlc false (u32 (start + 1)) s1) as [[[s2 out2] ok2]|] eqn:E2; [|discriminate].
    cbn [obind] in H. injection H as <- Hout ->.
    assert (Hmh : (match h with Some mm => ca_high c + Z.of_nat (length (hr_imports (handle start mm))) | None => 0 end) <= 4294967295).
    { destruct h as [mm|]; [|lia]. subst out. cbn [nimports fold_right fst snd] in Hm. fold (nimports handle out2) in Hm.
      assert (0 <= nimports handle out2) by (clear; induction out2; cbn [nimports fold_right]; [lia|]; fold (nimports handle out2); lia). lia. }
    pose proof (export1_spec _ _ _ _ _ E1 Ho Hc ltac:(lia) Hmh) as Hx.
    assert (Hn0 : 0 <= nimports handle out2) by (clear; induction out2; cbn [nimports fold_right]; [lia|]; fold (nimports handle out2); lia).
    destruct h as [mm|].
    - subst out. cbn [nimports fold_right fst snd] in Hm. fold (nimports handle out2) in Hm.
      destruct Hx as (b & c1 & X1 & X2 & X3 & X4 & X5 & X6 & X7 & X8 & X9 & X10 & X11).
      assert (Hs1 : start + 1 <= 4294967295) by lia.
      rewrite u32_id in E2 by (unfold is_u32; lia).
      destruct (IH _ _ _ _ _ c1 E2 X6 X10) as (S1 & S2 & S3 & S4 & S5 & S6 & c2 & C1 & C2 & C3 & C4 & C5 & C6); [lia|lia|lia|].
      assert (Hother : forall n, n <> start -> is_u32 n -> msgname n <> msgname start) by (intros n Hd Hn Hq; apply Hd, msgname_inj; auto; unfold is_u32 in *; lia).
      assert (Hold : forall n b', n <> start -> is_u32 n -> msgfile (ms_dir s1) n = Some b' -> waiting b' -> msgfile (ms_dir s) n = Some b').
      { intros n b' Hd Hn Hb' Hw. specialize (X5 (msgname n) (Hother n Hd Hn)). unfold msgfile in *. fold (msgname n) in *.
        destruct (fget (ms_dir s) (msgname n)) as [x|]; [congruence|]. destruct (X5 b' Hb') as [Hq _]. contradiction. }
      assert (Hin : forall n, In n (map fst out2) -> n <> start /\ is_u32 n /\ start + 1 <= n).
      { intros n Hn. rewrite Forall_forall in S2. destruct (S2 n Hn). split; [lia|auto]. }
      cbn [map fst]. split; [|split; [|split; [|split; [|split; [|split]]]]].
      + constructor; auto. apply Forall_forall. intros n Hn. apply Hin in Hn. lia.
      + constructor; [unfold is_u32; split; lia|]. eapply Forall_impl; [|exact S2]. cbn. intros n [Ha Hb]. split; [lia|auto].
      + intros n Hn Hs. destruct (Z.eq_dec n start) as [->|Hd].
        * split; [intros _; exists b; auto|left; auto].
        * assert (Hiff : In n (map fst out2) <-> exists b0, msgfile (ms_dir s1) n = Some b0 /\ waiting b0) by (apply S3; [auto|lia]).
          split.
          -- intros [Hq|Hq]; [congruence|]. apply Hiff in Hq as (b' & Hb' & Hw). exists b'. split; auto.
          -- intros (b' & Hb' & Hw). right. apply Hiff. exists b'. split; auto. specialize (X5 (msgname n) (Hother n Hd Hn)).
             unfold msgfile in *. fold (msgname n) in *. rewrite Hb' in X5. auto.
      + intros n m [Hq|Hq]; [injection Hq as <- <-; exists b; auto|].
        destruct (S4 n m Hq) as (b' & Hb' & Hmd). exists b'. split; auto.
        assert (Hi : In n (map fst out2)) by (apply (in_map fst) in Hq; auto). destruct (Hin n Hi) as (Hd & Hn & Hs).
        apply Hold; auto. apply S3 in Hi as (b2 & Hb2 & Hw); auto. congruence.
      + intros n [<-|Hi].
        * exists b. split; auto.
          assert (Hni : forall n, In n (map fst out2) -> msgname start <> msgname n) by (intros n Hn; destruct (Hin n Hn) as (Hd & Hu & _); intros Hq; apply (Hother n Hd Hu); auto).
          specialize (S6 (msgname start) Hni). unfold msgfile in *. fold (msgname start) in *.
          destruct (fget (ms_dir s1) (msgname start)) as [b1|] eqn:Eb; [rewrite S6; auto|].
          destruct (fget (ms_dir s2) (msgname start)) as [b2|] eqn:Eb2; auto. destruct (S6 b2 eq_refl) as (_ & k & Hk1 & Hk2 & Hk3).
          apply msgname_inj in Hk3; [lia|lia|unfold is_u32 in *; lia].
        * destruct (Hin n Hi) as (Hd & Hn & Hs). destruct (S5 n Hi) as (b' & Hb' & Hmk). exists b'. split; auto. apply Hold; auto.
          apply S3 in Hi as (b2 & Hb2 & Hw); auto. congruence.
      + intros name Hname. assert (Hne : name <> msgname start) by (apply Hname; left; auto).
        specialize (X5 name Hne). specialize (S6 name (fun n Hn => Hname n (or_intror Hn))).
        destruct (fget (ms_dir s) name) as [b'|] eqn:Eb; [rewrite X5 in S6; auto|].
        destruct (fget (ms_dir s1) name) as [b1|] eqn:Eb1.
        * intros b2 Hb2. rewrite S6 in Hb2. injection Hb2 as <-. apply X5; auto.
        * intros b2 Hb2. destruct (S6 b2 Hb2) as (Hw & k & Hk1 & Hk2). split; auto. exists k. split; [lia|auto].
      + exists c2. cbn [nimports fold_right fst snd]. fold (nimports handle out2). repeat split; auto; try lia; try congruence.
        destruct C6 as [C6|[C6 C6']].
        * rewrite C6. destruct X11 as [X11|[X11 X12]]; [left; auto|]. right. rewrite X11. split; [left; auto|].
          assert (Hni : forall n, In n (map fst out2) -> msgname start <> msgname n) by (intros n Hn; destruct (Hin n Hn) as (Hd & Hu & _); intros Hq; apply (Hother n Hd Hu); auto).
          specialize (S6 (msgname start) Hni). unfold msgfile in *. fold (msgname start) in *.
          destruct (fget (ms_dir s1) (msgname start)); [rewrite S6; discriminate|contradiction].
        * right. split; [right; auto|auto].
    - subst out2. destruct Hx as [-> Hnw].
      destruct (Z.eq_dec start 4294967295) as [->|Hne]; [lia|].
      rewrite u32_id in E2 by (unfold is_u32; lia).
      destruct (IH _ _ _ _ _ c E2 Ho Hc) as (S1 & S2 & S3 & S4 & S5 & S6 & S7); [lia|lia|lia|].
      split; auto. split; [eapply Forall_impl; [|exact S2]; cbn; intros n [Ha Hb]; split; [lia|auto]|].
      split; [|auto]. intros n Hn Hs. destruct (Z.eq_dec n start) as [->|Hd]; [|apply S3; [auto|lia]].
      split; [|intros Hq; contradiction]. intros Hi. rewrite Forall_forall in S2. destruct (S2 start Hi). lia.
  Qed.
End Scan.
