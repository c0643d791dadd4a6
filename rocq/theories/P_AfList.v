(** Lemmas about the lists and replies of AreaFix. *)
From Coq Require Import Permutation Sorted.
From Verif Require Import Base M_Node4D S_Node4D M_Str M_Mem P_Mem M_Pat M_Cfg M_Pkt M_Filter M_Net P_Net P_Export M_Echo M_Areafix M_Out M_List S_List T_List M_Msg M_Link M_AfList S_AfList.

(** ** Dividing an answer *)
Lemma addressing_ok flags o d : addressing (flag flags CFG_FORCEINTL) o d = concat (kludgelines flags o d).
Proof.
  rewrite concat_kludgelines. unfold addressing, kludge_fmpt, kludge_topt, kludge_intl.
  replace (negb (zone o =? zone d) || flag flags CFG_FORCEINTL) with (negb ((zone o =? zone d) && negb (flag flags CFG_FORCEINTL))) by (destruct (zone o =? zone d), (flag flags CFG_FORCEINTL); reflexivity).
  destruct (_ && _); reflexivity.
Qed.
Lemma crs_app a b : crs (a ++ b) = crs a ++ crs b.
Proof. unfold crs. rewrite map_app, concat_app. reflexivity. Qed.
Lemma lor_auto f : flag (Z.lor f MMFLAG_AUTOGEN) MMFLAG_AUTOGEN = true.
Proof.
  unfold flag. destruct (Z.eqb_spec (Z.land (Z.lor f MMFLAG_AUTOGEN) MMFLAG_AUTOGEN) 0) as [E|E]; [|reflexivity].
  exfalso. apply (f_equal (fun z => Z.testbit z 4)) in E. rewrite Z.land_spec, Z.lor_spec in E. change (Z.testbit MMFLAG_AUTOGEN 4) with true in E.
  rewrite orb_true_r in E. discriminate E.
Qed.

Section Parts.
  Variables (flags max : Z) (handle : list memmsg -> memmsg -> memmsg) (date : nat -> list Z).
  Variables (fn : list Z) (o : node4d) (tn : list Z) (d : node4d) (subj : list Z).
  Hypothesis Hk : keeps_header handle.
  Hypothesis Hm : 0 <= max < 4294967296.
  Notation fi := (flag flags CFG_FORCEINTL).
  Notation ispart := (is_part fi fn o tn d subj date).

  Lemma part_n n n' k p m : S k <> n -> S k <> n' -> ispart n k p m -> ispart n' k p m.
  Proof.
    intros H H' [A B C D E F G]. constructor; auto. rewrite G. apply Nat.eqb_neq in H, H'. rewrite H, H'. reflexivity.
  Qed.
  Definition off (k : nat) : Z := match k with O => 0 | _ => 2 end.
  Record inv (parts : list (list (list Z))) (cur : list (list Z)) (r : afrep) : Prop := {
    i_len : length (r_sent r) = length parts;
    i_sent : forall k p m, nth_error parts k = Some p -> nth_error (r_sent r) k = Some m -> ispart (S (length parts)) k p m;
    i_cap : 2 <= max -> forall k p, nth_error parts k = Some p -> off k + Z.of_nat (length p) <= Z.max 3 (max - 2) /\ (5 <= max -> off k + Z.of_nat (length p) = max - 2);
    i_one : max = 0 \/ max = 1 -> parts = [];
    i_few : (length parts <= length (concat parts ++ cur))%nat;
    i_lines : r_lines r = off (length parts) + Z.of_nat (length cur);
    i_room : 2 <= max -> r_lines r <= Z.max 3 (max - 2);
    i_first : 2 <= max -> parts = [] -> r_lines r <= max - 2;
    i_part : r_part r = Z.of_nat (length parts) + 1;
    i_subj : r_subject r = subj;
    i_from : From (r_mm r) = fn /\ OrigNode (r_mm r) = o;
    i_to : To (r_mm r) = tn /\ DestNode (r_mm r) = d;
    i_net : Area (r_mm r) = [];
    i_auto : flag (Flags (r_mm r)) MMFLAG_AUTOGEN = true;
    i_date : DateTime (r_mm r) = date (length parts);
    i_ch : chunks_ok (TextChunks (r_mm r));
    i_text : mmtext (r_mm r) = addressing fi o d ++ (match length parts with O => [] | _ => from_previous end) ++ crs cur }.

  Lemma begin_ok sent m : chunks_ok (TextChunks m) -> exists cs, begin flags date sent m = Some (set_TextChunks (set_Flags (set_DateTime m (date sent)) (Z.lor (Flags m) MMFLAG_AUTOGEN)) cs) /\
    chunks_ok cs /\ concat (rev cs) = mmtext m ++ addressing fi (OrigNode m) (DestNode m).
  Proof. intros H. rewrite addressing_ok. unfold begin. exact (MakeNetmailKludges_spec flags (set_Flags (set_DateTime m (date sent)) (Z.lor (Flags m) MMFLAG_AUTOGEN)) H). Qed.

  (** a message is finished with [tail] and handed over *)
  Lemma send_ok parts cur r n : inv parts cur r -> Z.of_nat (length parts) + 1 < 4294967296 -> n = S (length parts) ->
    let m := set_Subject (r_mm r) (if negb (r_part r =? 1) then r_subject r ++ lit " (part " ++ dec (r_part r) ++ lit ")" else r_subject r) in
    ispart n (length parts) cur m.
  Proof.
    intros [] Hp -> m. unfold m. constructor; cbn [From To OrigNode DestNode Area Flags DateTime Subject set_Subject]; auto.
    - rewrite i_part0, i_subj0. destruct (length parts) as [|k]; [reflexivity|].
      destruct (Z.eqb_spec (Z.of_nat (S k) + 1) 1) as [E|E]; [lia|]. reflexivity.
    - rewrite Nat.eqb_refl, app_nil_r. unfold mmtext in *. cbn [TextChunks set_Subject]. exact i_text0.
  Qed.

  Lemma init_ok : exists r, afInitReply flags date fn o tn d subj = Some r /\ inv [] [] r.
  Proof.
    unfold afInitReply. edestruct begin_ok as (cs & E & Hc & T); [|rewrite E; cbn [obind]]; [constructor|].
    eexists. split; [reflexivity|]. constructor; cbn [r_sent r_mm r_lines r_part r_subject From To OrigNode DestNode Area Flags DateTime TextChunks set_TextChunks set_Flags set_DateTime length]; auto.
    - intros k p m H. destruct k; discriminate H.
    - intros _ k p H. destruct k; discriminate H.
    - lia.
    - lia.
    - unfold crs. cbn [map concat app]. rewrite app_nil_r. unfold mmtext. cbn [TextChunks set_TextChunks]. rewrite T. reflexivity.
  Qed.

  Lemma nth_snoc {A} (l : list A) x k y : nth_error (l ++ [x]) k = Some y -> nth_error l k = Some y \/ (k = length l /\ y = x).
  Proof.
    intros H. destruct (Nat.lt_ge_cases k (length l)); [left; rewrite nth_error_app1 in H; auto|].
    right. rewrite nth_error_app2 in H by auto. destruct (k - length l)%nat as [|j] eqn:E; [|destruct j; discriminate H].
    cbn in H. split; [lia|congruence].
  Qed.

  (** the division *)
  Lemma split_ok parts cur r : inv parts cur r -> r_lines r >= u32 (max - 2) -> max <> 0 -> Z.of_nat (length (concat parts ++ cur)) + 4 < 4294967296 ->
    exists r1, (do m <- mmAddLine (r_mm r) contnext;
                let r' := afSendMessage handle (set_mm r m) in
                do m' <- begin flags date (length (r_sent r')) (set_TextChunks (r_mm r') []);
                do m'' <- mmAddLine m' contfrom;
                Some (AFR m'' (r_subject r) 2 (u32 (r_part r + 1)) (r_sent r'))) = Some r1 /\
      r_lines r1 = 2 /\
      max >= 2 /\
      (length (r_sent r1) = S (length parts) /\
       (forall k p m, nth_error (parts ++ [cur]) k = Some p -> nth_error (r_sent r1) k = Some m -> ispart (S (S (length parts))) k p m) /\
       (forall k p, nth_error (parts ++ [cur]) k = Some p -> off k + Z.of_nat (length p) <= Z.max 3 (max - 2) /\ (5 <= max -> off k + Z.of_nat (length p) = max - 2))) /\
      r_part r1 = Z.of_nat (S (length parts)) + 1 /\ r_subject r1 = subj /\
      (From (r_mm r1) = fn /\ OrigNode (r_mm r1) = o) /\ (To (r_mm r1) = tn /\ DestNode (r_mm r1) = d) /\ Area (r_mm r1) = [] /\
      flag (Flags (r_mm r1)) MMFLAG_AUTOGEN = true /\ DateTime (r_mm r1) = date (S (length parts)) /\ chunks_ok (TextChunks (r_mm r1)) /\
      mmtext (r_mm r1) = addressing fi o d ++ from_previous.
  Proof.
    intros I Hl H0 Hb. pose proof I as [].
    assert (Hparts : Z.of_nat (length parts) + 4 < 4294967296) by lia.
    assert (Hcur : r_lines r + 2 < 4294967296).
    { rewrite i_lines0. rewrite app_length in Hb. unfold off. destruct (length parts); lia. }
    assert (Hmax : max >= 2).
    { destruct (Z.eq_dec max 1) as [->|]; [|lia]. change (u32 (1 - 2)) with 4294967295 in Hl. lia. }
    assert (Hu : u32 (max - 2) = max - 2) by (unfold u32; apply Z.mod_small; lia). rewrite Hu in Hl.
    destruct (netline_text (r_mm r) contnext i_net0 i_ch0 ltac:(discriminate)) as (cs & E & Hc & T). rewrite E. cbn [obind].
    set (r' := afSendMessage handle (set_mm r (set_TextChunks (r_mm r) cs))). cbv zeta.
    unfold afSendMessage in r'. cbn [r_mm set_mm r_part r_subject r_sent r_lines] in r'.
    set (m := set_Subject (set_TextChunks (r_mm r) cs) (if negb (r_part r =? 1) then r_subject r ++ lit " (part " ++ dec (r_part r) ++ lit ")" else r_subject r)) in *.
    assert (P : ispart (S (S (length parts))) (length parts) cur m).
    { pose proof (send_ok parts cur r (S (length parts)) I ltac:(lia) eq_refl) as [A B C D F G J]. cbv zeta in *.
      unfold m. constructor; auto. unfold mmtext. cbn [TextChunks set_Subject set_TextChunks]. rewrite T, i_text0.
      destruct (Nat.eqb_spec (S (length parts)) (S (S (length parts)))) as [|]; [lia|]. rewrite <- !app_assoc. reflexivity. }
    pose proof (Hk (r_sent r) m) as (K1 & K2 & K3 & K4 & K5). cbv zeta in *.
    destruct (begin_ok (length (r_sent r')) (set_TextChunks (r_mm r') [])) as (cs2 & E2 & Hc2 & T2); [constructor|].
    rewrite E2. cbn [obind]. set (m2 := set_TextChunks (set_Flags _ _) cs2) in *.
    assert (HA : Area m2 = []) by (unfold m2, r'; cbn [Area set_TextChunks set_Flags set_DateTime r_mm]; rewrite K5; exact i_net0).
    destruct (netline_text m2 contfrom HA) as (cs3 & E3 & Hc3 & T3); [exact Hc2|discriminate|].
    rewrite E3. cbn [obind]. eexists. split; [reflexivity|].
    assert (Hs : length (r_sent r') = S (length parts)) by (unfold r'; cbn [r_sent]; rewrite app_length, i_len0; cbn [length]; lia).
    cbn [r_lines r_mm r_sent r_part r_subject]. split; [reflexivity|]. split; [exact Hmax|]. split; [split; [exact Hs|]; split|].
    - intros k p x Hp Hx. unfold r' in Hx. cbn [r_sent] in Hx. apply nth_snoc in Hp as [Hp|[-> ->]].
      + assert (Hlt : (k < length parts)%nat) by (apply nth_error_Some; congruence).
        rewrite nth_error_app1 in Hx by lia. eapply part_n; [| |apply (i_sent0 _ _ _ Hp Hx)]; lia.
      + rewrite nth_error_app2, i_len0, Nat.sub_diag in Hx by lia. cbn in Hx. injection Hx as <-. exact P.
    - intros k p Hp. apply nth_snoc in Hp as [Hp|[-> ->]]; [apply i_cap0; auto; lia|].
      specialize (i_room0 ltac:(lia)). rewrite i_lines0 in *. split; [lia|]. intros. lia.
    - assert (Hpn : u32 (r_part r + 1) = Z.of_nat (S (length parts)) + 1) by (rewrite i_part0; unfold u32; rewrite Z.mod_small; lia).
      split; [exact Hpn|]. split; [exact i_subj0|].
      unfold m2, r'. cbn [From To OrigNode DestNode Area Flags DateTime TextChunks set_TextChunks set_Flags set_DateTime r_mm r_sent].
      rewrite K1, K2, K3, K4, K5. unfold m. cbn [From To OrigNode DestNode Area set_Subject set_TextChunks].
      split; [exact i_from0|]. split; [exact i_to0|]. split; [exact i_net0|]. split; [apply lor_auto|].
      split; [f_equal; rewrite <- Hs; reflexivity|]. split; [exact Hc3|].
      unfold mmtext. cbn [TextChunks set_TextChunks]. rewrite T3. unfold mmtext at 1, m2. cbn [TextChunks set_TextChunks]. rewrite T2.
      unfold mmtext. cbn [TextChunks set_TextChunks concat rev app OrigNode DestNode]. unfold r'. cbn [r_mm]. rewrite K3, K4.
      destruct i_from0 as [_ I3], i_to0 as [_ I4]. unfold m. cbn [OrigNode DestNode set_Subject set_TextChunks]. rewrite I3, I4. reflexivity.
  Qed.

  Lemma add_ok parts cur r l : inv parts cur r -> (length l <= 198)%nat -> hd 0 l <> 1 -> Z.of_nat (length (concat parts ++ cur)) + 4 < 4294967296 ->
    exists parts' cur' r', afAddLine flags max handle date r l = Some r' /\ inv parts' cur' r' /\ concat parts' ++ cur' = (concat parts ++ cur) ++ [l].
  Proof.
    intros I Hlen Hl Hb. unfold afAddLine.
    assert (Hl' : forall r0, l ++ [13] <> 1 :: r0) by (intros r0 E; destruct l; cbn in *; congruence).
    assert (L : Nat.ltb 198 (length l) = false) by (apply Nat.ltb_ge; lia).
    destruct (_ && _) eqn:C.
    - apply andb_prop in C as [C1 C2]. apply Z.geb_le in C1. apply negb_true_iff, Z.eqb_neq in C2.
      destruct (split_ok parts cur r I ltac:(lia) C2 Hb) as (r1 & E & Hln & Hmax & (S1 & S2 & S3) & P1 & P2 & P3 & P4 & P5 & P6 & P7 & P8 & P9).
      cbv zeta in E. rewrite E. cbn [obind]. rewrite L.
      destruct (netline_text (r_mm r1) (l ++ [13]) P5 P8 Hl') as (cs & E1 & Hc & T). rewrite E1. cbn [obind].
      exists (parts ++ [cur]), [l]. eexists. split; [reflexivity|].
      assert (Hn : length (parts ++ [cur]) = S (length parts)) by (rewrite app_length; cbn [length]; lia).
      assert (Hcc : concat (parts ++ [cur]) = concat parts ++ cur) by (rewrite concat_app; cbn [concat]; rewrite app_nil_r; reflexivity).
      split; [|rewrite Hcc; reflexivity].
      pose proof I as [].
      constructor; rewrite ?Hn; cbn [r_sent r_mm r_lines r_part r_subject From To OrigNode DestNode Area Flags DateTime TextChunks set_TextChunks off]; auto.
      + intros [->| ->]; lia.
      + rewrite Hcc, app_length. cbn [length]. lia.
      + rewrite Hln. reflexivity.
      + rewrite Hln. change (u32 (2 + 1)) with 3. lia.
      + intros _ E'. destruct parts; discriminate E'.
      + unfold mmtext. cbn [TextChunks set_TextChunks]. rewrite T, P9. unfold crs. cbn [map concat]. rewrite app_nil_r, <- !app_assoc. reflexivity.
    - cbn [obind]. rewrite L. pose proof I as [].
      destruct (netline_text (r_mm r) (l ++ [13]) i_net0 i_ch0 Hl') as (cs & E1 & Hc & T). rewrite E1. cbn [obind].
      exists parts, (cur ++ [l]). eexists. split; [reflexivity|]. split; [|rewrite app_assoc; reflexivity].
      assert (Hcur : r_lines r + 2 < 4294967296) by (rewrite i_lines0; rewrite app_length in Hb; unfold off; destruct (length parts); lia).
      assert (Hpos : 0 <= r_lines r) by (rewrite i_lines0; unfold off; destruct (length parts); lia).
      assert (Hu : u32 (r_lines r + 1) = r_lines r + 1) by (unfold u32; apply Z.mod_small; lia).
      assert (Hroom : 2 <= max -> r_lines r + 1 <= max - 2).
      { intros Hx. apply andb_false_iff in C as [C|C]; [|apply negb_false_iff, Z.eqb_eq in C; lia].
        assert (u32 (max - 2) = max - 2) by (unfold u32; apply Z.mod_small; lia). rewrite H in C. destruct (Z.geb_spec (r_lines r) (max - 2)); [discriminate|lia]. }
      constructor; cbn [r_sent r_mm r_lines r_part r_subject From To OrigNode DestNode Area Flags DateTime TextChunks set_TextChunks]; auto.
      + rewrite app_assoc, app_length. cbn [length]. lia.
      + rewrite Hu, i_lines0, app_length. cbn [length]. lia.
      + rewrite Hu. intros Hx. specialize (Hroom Hx). lia.
      + rewrite Hu. intros Hx _. specialize (Hroom Hx). lia.
      + unfold mmtext. cbn [TextChunks set_TextChunks]. rewrite T, i_text0, crs_app. unfold crs at 3. cbn [map concat]. rewrite app_nil_r, <- !app_assoc. reflexivity.
  Qed.
  Lemma adds_ok ls : forall parts cur r, inv parts cur r -> Forall (fun l => (length l <= 198)%nat /\ hd 0 l <> 1) ls ->
    Z.of_nat (length (concat parts ++ cur) + length ls) + 4 < 4294967296 ->
    exists parts' cur' r', afAddLines flags max handle date r ls = Some r' /\ inv parts' cur' r' /\ concat parts' ++ cur' = (concat parts ++ cur) ++ ls.
  Proof.
    induction ls as [|l ls IH]; intros parts cur r I Hf Hb; cbn [afAddLines].
    - exists parts, cur, r. rewrite app_nil_r. auto.
    - inversion Hf as [|? ? [H1 H2] Hf']; subst. cbn [length] in Hb.
      destruct (add_ok parts cur r l I H1 H2 ltac:(lia)) as (p1 & c1 & r1 & E & I1 & Ec). rewrite E. cbn [obind].
      destruct (IH p1 c1 r1 I1 Hf') as (p2 & c2 & r2 & E2 & I2 & Ec2); [rewrite Ec, app_length; cbn [length]; lia|].
      exists p2, c2, r2. split; [exact E2|]. split; [exact I2|]. rewrite Ec2, Ec, <- app_assoc. reflexivity.
  Qed.
  Lemma reply_ok ls : Forall (fun l => (length l <= 198)%nat /\ hd 0 l <> 1) ls -> Z.of_nat (length ls) + 4 < 4294967296 ->
    exists ms, reply flags max handle date fn o tn d subj ls = Some ms /\ answer max fi fn o tn d subj date ls ms.
  Proof.
    intros Hf Hb. unfold reply. destruct init_ok as (r0 & E0 & I0). rewrite E0. cbn [obind].
    destruct (adds_ok ls [] [] r0 I0 Hf) as (parts & cur & r & E & I & Ec); [cbn [concat app length]; lia|]. rewrite E. cbn [obind].
    eexists. split; [reflexivity|]. unfold afSendMessage. cbn [r_sent]. cbn [concat app] in Ec.
    pose proof I as [].
    assert (Hlen : (length parts <= length ls)%nat) by (rewrite <- Ec; exact i_few0).
    pose proof (send_ok parts cur r (S (length parts)) I ltac:(lia) eq_refl) as P. cbv zeta in P.
    exists (parts ++ [cur]). rewrite !app_length, i_len0. cbn [length]. rewrite Nat.add_1_r.
    split; [rewrite concat_app; cbn [concat]; rewrite app_nil_r; exact Ec|]. split; [reflexivity|]. split; [|split].
    - intros k p m Hp Hx. apply nth_snoc in Hp as [Hp|[-> ->]].
      + assert (Hlt : (k < length parts)%nat) by (apply nth_error_Some; congruence). rewrite nth_error_app1 in Hx by lia. eauto.
      + rewrite nth_error_app2, i_len0, Nat.sub_diag in Hx by lia. cbn in Hx. injection Hx as <-. exact P.
    - intros H. rewrite (i_one0 H). reflexivity.
    - intros Hx k p Hp. unfold height. apply nth_snoc in Hp as [Hp|[-> ->]].
      + assert (Hlt : (k < length parts)%nat) by (apply nth_error_Some; congruence).
        destruct (Nat.eqb_spec (S k) (S (length parts))); [lia|]. destruct (i_cap0 Hx k p Hp) as [A B]. unfold off in *.
        assert (Q : 5 <= max -> Z.of_nat (length p) + (match k with O => 0 | _ => 2 end) + 2 = max) by (intros Q; specialize (B Q); lia).
        split; [|intros H5 _; exact (Q H5)]. destruct (Z_le_gt_dec 5 max) as [H5|H5]; [specialize (Q H5); lia|]. lia.
      + rewrite Nat.eqb_refl. split; [|congruence]. specialize (i_room0 Hx). rewrite i_lines0 in i_room0. unfold off in i_room0. lia.
  Qed.
End Parts.

(** ** Rows *)
Definition torow (e : sentry) : row := Row (se_tag e) (se_desc e) (se_group e) (se_att e) (se_feed e) (showkb (se_kb e)).

Lemma firstn_repeat {A} (x : A) n m : firstn n (repeat x m) = repeat x (Nat.min n m).
Proof. revert m. induction n as [|n IH]; intros [|m]; cbn; congruence. Qed.
Lemma padr_column n s : padr n s = column n s.
Proof.
  unfold padr, column. rewrite firstn_app, firstn_repeat, firstn_length. f_equal. f_equal. lia.
Qed.
Lemma padl_right n s : padl n s = rightcol n s.
Proof. unfold padl, rightcol. rewrite firstn_length. f_equal. f_equal. lia. Qed.
Lemma entry_ok t e : entrylines t e = rowtext t (torow e).
Proof.
  unfold entrylines, rowtext. cbn [w_tag w_desc w_kb torow]. rewrite !padr_column, padl_right.
  assert (M : signof t (torow e) = [mark t e]) by (unfold signof, mark; cbn [w_feed w_linked torow]; destruct (se_feed e), t, (se_att e); reflexivity).
  rewrite M. destruct (_ <=? 28)%nat; reflexivity.
Qed.
Lemma find_existsb {A} (f : A -> bool) l : existsb f l = match find f l with Some _ => true | None => false end.
Proof. induction l as [|a l IH]; [reflexivity|]. cbn. destruct (f a); auto. Qed.

Lemma showkb_dec z : 0 <= z < 2147483648 -> showkb z = dec z.
Proof.
  intros H. unfold showkb, s32. destruct (Z.eqb_spec z 4294967295); [lia|]. rewrite Z.mod_small by lia.
  destruct (Z.ltb_spec (z + 2147483648 - 2147483648) 0); [lia|reflexivity].
Qed.
Lemma sum_bound l n : Forall (fun x => 0 <= x < 65536) l -> 0 <= fold_right Z.add 0 (firstn n l) <= 65535 * Z.of_nat n.
Proof.
  intros H. revert n. induction H as [|x l Hx Hl IH]; intros [|n]; cbn [firstn fold_right]; try specialize (IH n); lia.
Qed.
Lemma Forall_tl {A} (P : A -> Prop) l : Forall P l -> Forall P (tl l).
Proof. intros H. destruct H; [constructor|exact H0]. Qed.
Lemma kb_ok day i a : area_fine day i a -> showkb (u32 (CalculateWeekKB day a)) = traffic day a.
Proof.
  intros [_ _ _ Ht H8 Hf Ha]. unfold CalculateWeekKB, traffic.
  destruct ((la_first a =? 0) || (day =? 0)) eqn:E0; [reflexivity|]. apply orb_false_iff in E0 as [E1 E2]. apply Z.eqb_neq in E1, E2.
  specialize (Ha E1 E2). rewrite Z.quot_div_nonneg by lia. set (age := day - la_first a / 86400) in *.
  assert (Hs : s32 age = age) by (unfold s32; rewrite Z.mod_small; lia). rewrite Hs. cbv zeta.
  assert (Hd : (if age >? 7 then 7 else age) = Z.min 7 age) by (destruct (Z.gtb_spec age 7); lia). rewrite Hd.
  unfold sumdays. replace (skipn 1 (la_last8 a)) with (tl (la_last8 a)) by (destruct (la_last8 a); reflexivity).
  set (sum := fold_right Z.add 0 _).
  assert (Hsum : 0 <= sum <= 65535 * 7).
  { pose proof (sum_bound (tl (la_last8 a)) (Z.to_nat (Z.min 7 age)) (Forall_tl _ _ H8)). fold sum in H. lia. }
  destruct (_ && _).
  - assert (Hx : u32 (if age =? 0 then 1 else age) = Z.max 1 age) by (unfold u32; destruct (Z.eqb_spec age 0); rewrite Z.mod_small; lia). rewrite Hx.
    assert (0 <= la_texts a / Z.max 1 age <= la_texts a) by (split; [apply Z.div_pos; lia|apply Z.div_le_upper_bound; nia]).
    unfold u32. rewrite Z.mod_small by lia. apply showkb_dec. lia.
  - assert (Hx : (if Z.min 7 age =? 0 then 1 else Z.min 7 age) mod 18446744073709551616 = Z.max 1 (Z.min 7 age)) by (destruct (Z.eqb_spec (Z.min 7 age) 0); rewrite Z.mod_small; lia). rewrite Hx.
    assert (0 <= sum / Z.max 1 (Z.min 7 age) <= sum) by (split; [apply Z.div_pos; lia|apply Z.div_le_upper_bound; nia]).
    unfold u32. rewrite Z.mod_small by lia. apply showkb_dec. lia.
Qed.

Lemma flag_testbit f n : 0 <= n -> flag f (2 ^ n) = Z.testbit f n.
Proof.
  intros H. unfold flag. destruct (Z.testbit f n) eqn:E.
  - destruct (Z.eqb_spec (Z.land f (2 ^ n)) 0) as [E0|]; [|reflexivity].
    apply (f_equal (fun z => Z.testbit z n)) in E0. rewrite Z.land_spec, E, Z.pow2_bits_true, Z.bits_0 in E0 by lia. discriminate.
  - destruct (Z.eqb_spec (Z.land f (2 ^ n)) 0) as [|E0]; [reflexivity|]. exfalso. apply E0. apply Z.bits_inj'. intros k Hk.
    rewrite Z.land_spec, Z.bits_0, Z.pow2_bits_eqb by lia. destruct (Z.eqb_spec n k); [subst; rewrite E; reflexivity|apply andb_false_r].
Qed.
Lemma feed_once i l : (length (filter (fun t => Nat.eqb (tn_node t) i) l) <= 1)%nat ->
  match find (isnode i) l with Some x => flag (tn_flags x) TOSSNODE_FEED | None => false end =
  existsb (fun t => Nat.eqb (tn_node t) i && Z.testbit (tn_flags t) 2) l.
Proof.
  induction l as [|x l IH]; [reflexivity|]. cbn [filter find existsb]. unfold isnode at 1. destruct (Nat.eqb (tn_node x) i); cbn [andb orb].
  - cbn [length]. intros H. change TOSSNODE_FEED with (2 ^ 2). rewrite flag_testbit by lia.
    assert (E : filter (fun t => Nat.eqb (tn_node t) i) l = []) by (destruct (filter _ l); [reflexivity|cbn [length] in H; lia]).
    assert (X : existsb (fun t => Nat.eqb (tn_node t) i && Z.testbit (tn_flags t) 2) l = false); [|rewrite X, orb_false_r; reflexivity].
    apply Bool.not_true_is_false. intros X. apply existsb_exists in X as (y & Hy & X). apply andb_prop in X as [X _].
    assert (In y (filter (fun t => Nat.eqb (tn_node t) i) l)) by (apply filter_In; auto). rewrite E in H0. destruct H0.
  - apply IH.
Qed.
Lemma mem_app g a b : mem g a || mem g b = existsb (Z.eqb g) (a ++ b).
Proof. unfold mem. rewrite existsb_app. reflexivity. Qed.
Lemma local1 t day c i a : area_fine day i a -> map torow (addlocal t day c i a) = if sees t c i a then [localrow day i a] else [].
Proof.
  intros H. unfold addlocal, sees. destruct (_ =? AREATYPE_ECHOMAIL); [|reflexivity]. cbn [andb].
  assert (A : match find (isnode i) (ar_tn (la_ar a)) with Some _ => true | None => false end = islinked i a) by (unfold islinked; rewrite find_existsb; reflexivity).
  rewrite A. unfold CheckFlags. rewrite mem_app. change (existsb (Z.eqb (ar_group (la_ar a))) (cn_groups c ++ cn_rogroups c)) with (allowed c (ar_group (la_ar a))).
  destruct (match t with LQuery => _ | LUnlinked => _ | LFull => _ end); [|reflexivity].
  cbn [map]. unfold torow, localrow. cbn [se_tag se_desc se_group se_att se_feed se_kb]. rewrite (kb_ok _ _ _ H). f_equal. f_equal. apply feed_once. apply (lf_once _ _ _ H).
Qed.
Lemma local_ok t day c i areas : Forall (area_fine day i) areas ->
  map torow (concat (map (addlocal t day c i) areas)) = map (localrow day i) (filter (sees t c i) areas).
Proof.
  induction 1 as [|a l Ha Hl IH]; [reflexivity|]. cbn [map concat filter]. rewrite map_app, local1, IH by auto. destruct (sees t c i a); reflexivity.
Qed.

(** the lists of other systems *)
Lemma word_ok l : Forall (fun c => 1 <= c < 256) l -> fword l = linetag l.
Proof.
  unfold linetag. induction 1 as [|c l Hc Hl IH]; [reflexivity|]. cbn [fword spanning]. unfold visible at 1.
  replace ((c >? 32) && (c <? 128)) with ((33 <=? c) && (c <=? 127)) by lia. destruct (_ && _); [|reflexivity]. cbn [fst]. rewrite IH. reflexivity.
Qed.
Lemma span_skip f l : snd (spanning f l) = skipn (length (fst (spanning f l))) l.
Proof. induction l as [|c l IH]; [reflexivity|]. cbn. destruct (f c); [cbn; exact IH|reflexivity]. Qed.
Lemma skipdesc_ok l : Forall (fun c => 1 <= c < 256) l -> skipdesc l = snd (spanning (fun c => negb (visible c)) l).
Proof.
  induction 1 as [|c l Hc Hl IH]; [reflexivity|]. cbn [skipdesc spanning]. unfold visible at 1.
  replace ((c <=? 32) || (c >? 127)) with (negb ((33 <=? c) && (c <=? 127))) by lia. destruct (negb _); [exact IH|reflexivity].
Qed.
Lemma uptocr_ok n l : uptocr n l = firstn n (fst (spanning (fun c => negb ((c =? 10) || (c =? 13))) l)).
Proof.
  revert n. induction l as [|c l IH]; intros [|n]; try reflexivity. cbn [uptocr spanning]. destruct ((c =? 10) || (c =? 13)); [reflexivity|]. cbn. rewrite IH. reflexivity.
Qed.
Lemma span_stop f l c r : snd (spanning f l) = c :: r -> f c = false.
Proof.
  induction l as [|x l IH]; cbn; [discriminate|]. destruct (f x) eqn:E; [exact IH|]. cbn. intros H. injection H as -> ->. exact E.
Qed.
Lemma desc_ok l : Forall (fun c => 1 <= c < 256) l -> fdesc l = linedesc l.
Proof.
  intros H. unfold fdesc, linedesc. rewrite uptocr_ok. do 3 f_equal. rewrite word_ok by auto. unfold linetag.
  replace (skipn (S (length (fst (spanning visible l)))) l) with (tl (snd (spanning visible l))).
  2:{ rewrite span_skip. generalize (length (fst (spanning visible l))). intros n. clear H. revert l. induction n as [|n IH]; intros [|c l]; try reflexivity. cbn [skipn]. rewrite IH. destruct l; reflexivity. }
  destruct (snd (spanning visible l)) as [|c r] eqn:E; [reflexivity|]. cbn [tl].
  pose proof (span_stop _ _ _ _ E) as Hc. assert (Hr : Forall (fun c => 1 <= c < 256) (c :: r)) by (rewrite <- E, span_skip; rewrite <- (firstn_skipn (length (fst (spanning visible l))) l) in H; apply Forall_app in H; tauto).
  rewrite skipdesc_ok by (inversion Hr; auto). cbn [spanning]. rewrite Hc. reflexivity.
Qed.

Lemma streqi_iff_known (k k' : list (list Z)) : (forall x, In x k <-> In x k') -> forall t, existsb (streqi t) k = existsb (streqi t) k'.
Proof.
  intros H t. apply Bool.eq_true_iff_eq. rewrite !existsb_exists. split; intros (x & Hx & E); exists x; split; auto; apply H; auto.
Qed.
Lemma unknown_ext ws : forall k k', (forall x, In x k <-> In x k') -> unknown k ws = unknown k' ws.
Proof.
  induction ws as [|w ws IH]; intros k k' H; [reflexivity|]. cbn [unknown]. rewrite (streqi_iff_known k k' H). destruct (existsb _ k'); [apply IH; auto|].
  f_equal. apply IH. intros x. cbn [In]. rewrite H. tauto.
Qed.
Lemma unknown_app ws : forall k ws', unknown k (ws ++ ws') = unknown k ws ++ unknown (map w_tag (unknown k ws) ++ k) ws'.
Proof.
  induction ws as [|w ws IH]; intros k ws'; [reflexivity|]. cbn [app unknown]. destruct (existsb _ k); [apply IH|]. rewrite IH. cbn [app map]. do 2 f_equal.
  apply unknown_ext. intros x. rewrite !in_app_iff. cbn [In]. rewrite in_app_iff. tauto.
Qed.
Lemma addforward_ok tags al ls : forall sl, Forall (Forall (fun c => 1 <= c < 256)) ls ->
  map torow (addforward tags al ls sl) = map torow sl ++ unknown (tags ++ map se_tag sl) (filter (fun w => match w_tag w with [] => false | _ => true end) (map (fwdrow al) ls)).
Proof.
  induction ls as [|l ls IH]; intros sl H; [cbn; rewrite app_nil_r; reflexivity|]. inversion H as [|? ? H1 H2]; subst.
  cbn [addforward map filter]. cbn [w_tag fwdrow]. rewrite (word_ok l H1). rewrite IH by auto. clear IH.
  destruct (linetag l) as [|c0 t0] eqn:Et; [reflexivity|]. rewrite <- Et. cbn [unknown]. cbn [w_tag fwdrow].
  rewrite existsb_app. replace (existsb (streqi (linetag l)) (map se_tag sl)) with (existsb (fun e => streqi (linetag l) (se_tag e)) sl).
  2:{ clear. induction sl as [|e sl IH]; [reflexivity|]. cbn. rewrite IH. reflexivity. }
  destruct (_ || _); [reflexivity|]. rewrite !map_app, <- app_assoc. cbn [map app se_tag]. f_equal. f_equal.
  - unfold torow, fwdrow. cbn [se_tag se_desc se_group se_att se_feed se_kb]. rewrite (desc_ok l H1). change AREALIST_DESC with (2 ^ 0). rewrite flag_testbit by lia. reflexivity.
  - apply unknown_ext. intros x. rewrite !in_app_iff. cbn [In]. rewrite in_app_iff. tauto.
Qed.
Lemma forwards_ok tags als : forall sl, Forall (fun al => match al_lines al with Some ls => Forall (Forall (fun c => 1 <= c < 256)) ls | None => True end) als ->
  map torow (fold_left (AddForwardList tags) als sl) = map torow sl ++ unknown (tags ++ map se_tag sl) (concat (map offered als)).
Proof.
  induction als as [|al als IH]; intros sl H; [cbn; rewrite app_nil_r; reflexivity|]. inversion H as [|? ? H1 H2]; subst.
  cbn [fold_left map concat]. rewrite IH by auto. rewrite unknown_app. generalize (concat (map offered als)). intros rest. clear IH H H2.
  unfold AddForwardList, offered. destruct (al_lines al) as [ls|]; [|reflexivity].
  assert (T : map se_tag (addforward tags al ls sl) = map w_tag (map torow (addforward tags al ls sl))) by (rewrite map_map; reflexivity).
  rewrite T, addforward_ok by auto. rewrite <- app_assoc. do 2 f_equal.
  apply unknown_ext. intros x. rewrite map_app, map_map. cbn [torow w_tag]. rewrite !in_app_iff. tauto.
Qed.
Lemma collected_ok names t cfg day c i areas : setup_fine names cfg day areas i -> map torow (collected t cfg day c i areas) = contents cfg day areas t c i.
Proof.
  intros [Ha _ Hl]. unfold collected, contents, forwarded.
  change CFG_INCLUDEFORWARD with (2 ^ 23). change NODE_FORWARDREQ with (2 ^ 4). rewrite !flag_testbit by lia.
  replace (Z.testbit (fc_flags cfg) 23 && match t with LQuery => false | _ => true end && Z.testbit (cn_flags c) 4)
    with (Z.testbit (fc_flags cfg) 23 && Z.testbit (cn_flags c) 4 && match t with LQuery => false | _ => true end)
    by (destruct (Z.testbit (fc_flags cfg) 23), (Z.testbit (cn_flags c) 4), t; reflexivity).
  destruct (_ && _); [|rewrite local_ok, app_nil_r by auto; reflexivity].
  replace (filter (fun al => flag (al_flags al) AREALIST_FORWARD && CheckFlags (al_group al) (cn_groups c)) (fc_alists cfg)) with (filter (requestable c) (fc_alists cfg)).
  2:{ apply filter_ext. intros al. unfold requestable. change AREALIST_FORWARD with (2 ^ 1). rewrite flag_testbit by lia. reflexivity. }
  rewrite forwards_ok.
  2:{ apply Forall_forall. intros al Hin. apply filter_In in Hin as [Hin _]. rewrite Forall_forall in Hl. apply (Hl al Hin). }
  rewrite local_ok by auto. f_equal. apply unknown_ext. intros x. rewrite in_app_iff. split; [|auto]. intros [H|H]; [auto|].
  apply in_map_iff in H as (e & <- & He). apply in_concat in He as (l & Hl' & He). apply in_map_iff in Hl' as (a & <- & Hin).
  apply in_map_iff. exists a. split; auto. unfold addlocal in He. destruct (_ =? _); [|destruct He]. destruct (match t with LQuery => _ | LUnlinked => _ | LFull => _ end) in He; [|destruct He].
  destruct He as [<-|[]]. reflexivity.
Qed.

(** ** Order *)
Definition efine (e : sentry) : Prop := cstring (se_tag e) /\ group_ok (se_group e).
Lemma compare_anti a b : CompareAreas a b = - CompareAreas b a.
Proof.
  unfold CompareAreas. destruct (Z.ltb_spec (se_group a) (se_group b)), (Z.ltb_spec (se_group b) (se_group a)), (Z.gtb_spec (se_group a) (se_group b)), (Z.gtb_spec (se_group b) (se_group a)); try lia. apply stricmp_anti.
Qed.
Lemma compare_le a b : efine a -> efine b -> CompareAreas a b <= 0 <-> se_group a < se_group b \/ (se_group a = se_group b /\ name_le (se_tag a) (se_tag b)).
Proof.
  intros [Ha _] [Hb _]. unfold CompareAreas. destruct (Z.ltb_spec (se_group a) (se_group b)); [split; lia|]. destruct (Z.gtb_spec (se_group a) (se_group b)).
  - split; [lia|]. intros [|[]]; lia.
  - rewrite (stricmp_le _ _ Ha Hb). split; [right; split; auto; lia|]. intros [|[]]; [lia|auto].
Qed.
Lemma sorted_ok qsort l : sorts qsort -> Forall efine l -> Permutation (qsort CompareAreas l) l /\ StronglySorted (fun a b => CompareAreas a b <= 0) (qsort CompareAreas l).
Proof.
  intros H Hf. rewrite Forall_forall in Hf. apply H.
  - intros a b _ _. rewrite (compare_anti a b). lia.
  - intros a b c Ha Hb Hc. rewrite !compare_le by auto. intros [|[E1 N1]] [|[E2 N2]]; [left; lia|left; lia|left; lia|right]. split; [lia|]. eapply name_le_trans; eauto.
Qed.

Lemma groupname_ok names g : group_ok g -> groupname names g = Some (titleof names g).
Proof.
  intros H. unfold groupname, titleof. destruct (Z.eqb_spec g 0); [reflexivity|]. destruct H as [|H]; [lia|].
  destruct (Z.leb_spec 65 g); [|lia]. destruct (Z.ltb_spec g 95); [reflexivity|lia].
Qed.
Definition more (names : list (list Z)) (t : sltype) (gs : list (Z * list row)) : list (list Z) :=
  match gs with [] => [] | _ => [[]] ++ blanklines (map (grouptext names t) gs) end.
Lemma blank_cons names t g gs : blanklines (map (grouptext names t) (g :: gs)) = grouptext names t g ++ more names t gs.
Proof. destruct gs; cbn [map blanklines more]; [rewrite app_nil_r|]; reflexivity. Qed.
Lemma rows_ok names t es : Forall efine es -> StronglySorted (fun a b => CompareAreas a b <= 0) es -> forall g, Forall (fun e => g <= se_group e) es ->
  exists same gs, map torow es = same ++ concat (map snd gs) /\ Forall (fun w => w_group w = g) same /\ StronglySorted (fun a b => name_le (w_tag a) (w_tag b)) same /\
    arranged gs /\ Forall (fun x => g < fst x) gs /\
    rowlines names t (Some g) es = Some (concat (map (rowtext t) same) ++ more names t gs).
Proof.
  induction es as [|e es IH]; intros Hf Hs g Hg.
  { exists [], []. split; [reflexivity|]. split; [constructor|]. split; [constructor|]. split; [split; constructor|]. split; [constructor|reflexivity]. }
  inversion Hf as [|? ? He Hf']; subst. inversion Hs as [|? ? Hs' Hle]; subst. inversion Hg as [|? ? Hge Hg']; subst.
  assert (Hge' : Forall (fun x => se_group e <= se_group x) es).
  { apply Forall_forall. intros x Hx. rewrite Forall_forall in Hle, Hf'. specialize (Hle x Hx). rewrite compare_le in Hle by auto. lia. }
  destruct (IH Hf' Hs' (se_group e) Hge') as (same & gs & E & Hsame & Hnames & Harr & Hgt & ER). clear IH.
  assert (Hhd : StronglySorted (fun a b => name_le (w_tag a) (w_tag b)) (torow e :: same)).
  { constructor; auto. apply Forall_forall. intros w Hw. assert (Hin : In w (map torow es)) by (rewrite E; apply in_app_iff; auto).
    apply in_map_iff in Hin as (x & <- & Hx). rewrite Forall_forall in Hle, Hf', Hsame. specialize (Hle x Hx). rewrite compare_le in Hle by auto. specialize (Hsame _ Hw). cbn [torow w_group w_tag] in *.
    destruct Hle as [|[]]; [lia|auto]. }
  cbn [rowlines map]. rewrite ER, E. destruct (Z.eqb_spec g (se_group e)) as [->|Hne].
  - exists (torow e :: same), gs. cbn [obind app map concat]. rewrite entry_ok, <- app_assoc. repeat split; auto; try apply Harr. 
  - exists [], ((se_group e, torow e :: same) :: gs). cbn [app map concat snd fst].
    split; [reflexivity|]. split; [constructor|]. split; [constructor|]. split; [|split; [constructor; [cbn [fst]; lia|eapply Forall_impl; [|exact Hgt]; cbn; intros; lia]|]].
    + destruct Harr as [A1 A2]. split.
      * cbn [map fst]. constructor; auto. apply Forall_map. exact Hgt.
      * constructor; auto. cbn [fst snd]. split; [discriminate|]. split; [|exact Hhd]. constructor; [reflexivity|exact Hsame].
    + rewrite (groupname_ok names (se_group e) (proj2 He)). cbn [obind app]. unfold more at 2. rewrite blank_cons. unfold grouptext. cbn [fst snd map concat app]. rewrite entry_ok, <- !app_assoc. reflexivity.
Qed.
Lemma cons_inv {A} (x : A) a b : Some (x :: a) = Some (x :: b) -> a = b.
Proof. congruence. Qed.
Lemma allrows_ok names t es : Forall efine es -> StronglySorted (fun a b => CompareAreas a b <= 0) es ->
  exists gs, map torow es = concat (map snd gs) /\ arranged gs /\ rowlines names t None es = Some (blanklines (map (grouptext names t) gs)).
Proof.
  intros Hf Hs. destruct es as [|e es].
  { exists []. split; [reflexivity|]. split; [split; constructor|reflexivity]. }
  assert (Hg : Forall (fun x => -1 <= se_group x) (e :: es)) by (eapply Forall_impl; [|exact Hf]; intros x [_ [H|H]]; lia).
  destruct (rows_ok names t (e :: es) Hf Hs (-1) Hg) as (same & gs & E & Hsame & _ & Harr & Hgt & ER).
  inversion Hf as [|? ? [_ He] _]; subst.
  assert (same = []). { destruct same as [|w s]; [reflexivity|]. cbn [map app] in E. injection E as E _. inversion Hsame as [|? ? Hw]; subst. cbn [torow w_group] in Hw. destruct He; lia. }
  subst same. exists gs. split; [exact E|]. split; [exact Harr|]. cbn [rowlines] in ER |- *.
  assert (Hx : (-1 =? se_group e) = false) by (apply Z.eqb_neq; destruct He; lia). rewrite Hx in ER. cbn [map concat app] in ER.
  rewrite (groupname_ok names _ He) in *. cbn [obind] in *. destruct (rowlines names t (Some (se_group e)) es); [|discriminate ER]. cbn [obind] in *.
  destruct gs as [|g gs]; [discriminate ER|]. unfold more in ER. cbn [app] in *. f_equal. exact (cons_inv _ _ _ ER).
Qed.

(** ** Sizes *)
Definition shortline (l : list Z) : Prop := (length l <= 198)%nat /\ hd 0 l <> 1.
Lemma column_len n s : length (column n s) = n.
Proof. unfold column. rewrite firstn_length, app_length, repeat_length. lia. Qed.
Lemma right_len n s : length (rightcol n s) = n.
Proof. unfold rightcol. rewrite app_length, repeat_length, firstn_length. lia. Qed.
Lemma sign_len t w : exists c, signof t w = [c] /\ c <> 1.
Proof. unfold signof. destruct (w_feed w); [|destruct t; [| |destruct (w_linked w)]]; eexists; (split; [reflexivity|vm_compute; discriminate]). Qed.
Lemma row_short t w : Forall shortline (rowtext t w).
Proof.
  unfold rowtext. destruct (sign_len t w) as (c & -> & Hc). destruct (_ <=? 28)%nat; repeat (apply Forall_cons || apply Forall_nil); split; cbn [hd app]; auto;
    try (rewrite ?app_length; cbn [length]; rewrite ?app_length, ?column_len, ?right_len; change (length (lit "  ")) with 2%nat; try change (length (lit " ")) with 1%nat; cbn [length]; lia).
  vm_compute. discriminate.
Qed.
Lemma Forall_concat {A} (P : A -> Prop) ls : Forall (Forall P) ls -> Forall P (concat ls).
Proof. induction 1; cbn; [constructor|]. apply Forall_app. auto. Qed.
Lemma title_len names g : Forall (fun n => (length n <= 79)%nat) names -> (length (titleof names g) <= 79)%nat.
Proof.
  intros H. unfold titleof. destruct (g =? 0); [cbn; lia|]. destruct (Nat.lt_ge_cases (Z.to_nat (g - 65)) (length names)) as [L|L].
  - rewrite Forall_forall in H. apply H. apply nth_In. exact L.
  - rewrite nth_overflow by exact L. cbn. lia.
Qed.
Lemma short_const l : (length l <=? 198)%nat && negb (hd 0 l =? 1) = true -> shortline l.
Proof. intros H. apply andb_prop in H as [H1 H2]. apply Nat.leb_le in H1. apply negb_true_iff, Z.eqb_neq in H2. split; auto. Qed.
Lemma group_short names t g : Forall (fun n => (length n <= 79)%nat) names -> Forall shortline (grouptext names t g).
Proof.
  intros H. unfold grouptext. apply Forall_app. split.
  - apply Forall_cons; [|repeat (apply Forall_cons; [apply short_const; reflexivity|]); apply Forall_nil].
    split; [|vm_compute; discriminate]. rewrite app_length. pose proof (title_len names (fst g) H). change (length (lit " Group: ")) with 8%nat. lia.
  - apply Forall_concat. apply Forall_map. apply Forall_forall. intros w _. apply row_short.
Qed.
Lemma blank_short ls : Forall (Forall shortline) ls -> Forall shortline (blanklines ls).
Proof.
  induction 1 as [|x ls Hx Hl IH]; [constructor|]. destruct ls as [|y ls]; [exact Hx|].
  change (blanklines (x :: y :: ls)) with (x ++ [[]] ++ blanklines (y :: ls)). apply Forall_app. split; [exact Hx|]. apply Forall_cons; [apply short_const; reflexivity|exact IH].
Qed.
Lemma filter_length_le {A} (f : A -> bool) l : (length (filter f l) <= length l)%nat.
Proof. induction l as [|a l IH]; [reflexivity|]. cbn [filter]. destruct (f a); cbn [length]; lia. Qed.
Lemma list_short names t from gs : Forall (fun n => (length n <= 79)%nat) names -> valid4d from -> Z.of_nat (length (concat (map snd gs))) < 32768 ->
  Forall shortline (listtext names t from gs).
Proof.
  intros Hn (V1 & V2 & V3 & V4) Hc. unfold listtext. cbv zeta. set (ws := concat (map snd gs)) in *.
  assert (L1 : (length (num (length ws)) <= 5)%nat) by (apply dec5; unfold is_u16; lia).
  assert (L2 : (length (num (length (filter w_linked ws))) <= 5)%nat).
  { apply dec5. unfold is_u16. pose proof (filter_length_le w_linked ws). lia. }
  apply Forall_app. split; [|apply Forall_app; split].
  - apply Forall_cons; [|apply Forall_cons; [apply short_const; reflexivity|apply Forall_nil]]. split; [|vm_compute; discriminate].
    apply dec5 in V1, V2, V3, V4. unfold adr. rewrite !app_length.
    assert (length (match t with LQuery => lit "connected" | LUnlinked => lit "unlinked" | LFull => lit "available" end) <= 9)%nat by (destruct t; apply Nat.leb_le; reflexivity).
    change (length (lit "This is a list of all ")) with 22%nat. change (length (lit " areas at ")) with 10%nat.
    change (length (lit ":")) with 1%nat. change (length (lit "/")) with 1%nat. change (length (lit ".")) with 1%nat. lia.
  - apply blank_short. apply Forall_map. apply Forall_forall. intros g _. apply group_short. exact Hn.
  - destruct t; repeat (apply Forall_cons; [|]); try apply Forall_nil; try (apply short_const; reflexivity).
    + split; [|cbn [hd]; discriminate]. cbn [length]. rewrite app_length. change (length (lit " linked areas.")) with 14%nat. lia.
    + split; [|cbn [hd]; discriminate]. cbn [length]. rewrite app_length. change (length (lit " unlinked areas.")) with 16%nat. lia.
    + split; [|cbn [hd]; discriminate]. cbn [length]. rewrite !app_length.
      change (length (lit "Totally ")) with 8%nat. change (length (lit " areas, you are connected to ")) with 29%nat. change (length (lit " of them.")) with 9%nat. lia.
Qed.
Lemma row_count t ws : (length (concat (map (rowtext t) ws)) <= 2 * length ws)%nat.
Proof.
  induction ws as [|w ws IH]; [reflexivity|]. cbn [map concat length]. rewrite app_length. assert (length (rowtext t w) <= 2)%nat by (unfold rowtext; destruct (_ <=? 28)%nat; cbn [length]; lia). lia.
Qed.
Lemma blank_count names t gs : Forall (fun g => snd g <> []) gs -> (length (blanklines (map (grouptext names t) gs)) <= 7 * length (concat (map snd gs)))%nat.
Proof.
  induction 1 as [|g gs Hg Hgs IH]; [cbn; lia|]. rewrite blank_cons, app_length. cbn [map concat]. rewrite app_length. unfold grouptext. cbn [app length].
  pose proof (row_count t (snd g)) as R. destruct (snd g) as [|w ws] eqn:E; [congruence|].
  assert (length (more names t gs) <= 1 + length (blanklines (map (grouptext names t) gs)))%nat by (unfold more; destruct gs; cbn [app length]; lia).
  assert (Hn : length (w :: ws) = S (length ws)) by reflexivity. lia.
Qed.
Lemma list_count names t from gs : arranged gs -> Z.of_nat (length (concat (map snd gs))) < 32768 -> Z.of_nat (length (listtext names t from gs)) + 4 < 4294967296.
Proof.
  intros [_ Ha] Hc. assert (Hne : Forall (fun g : Z * list row => snd g <> []) gs) by (eapply Forall_impl; [|exact Ha]; cbn; tauto).
  pose proof (blank_count names t gs Hne) as B. unfold listtext. cbv zeta. rewrite !app_length. cbn [length].
  destruct t; cbn [length]; lia.
Qed.
Lemma shown_num n : Z.of_nat n < 32768 -> shown n = num n.
Proof. intros H. unfold shown, num, s16, u32. rewrite (Z.mod_small (Z.of_nat n + 32768)) by lia. rewrite Z.mod_small by lia. f_equal. lia. Qed.
Lemma tail_ok t es : Z.of_nat (length es) < 32768 ->
  taillines t es = (let ws := map torow es in match t with
  | LQuery => [13 :: num (length ws) ++ lit " linked areas."; lit "A '%' means that you are the feed for the area."]
  | LUnlinked => [13 :: num (length ws) ++ lit " unlinked areas."]
  | LFull => [13 :: lit "Totally " ++ num (length ws) ++ lit " areas, you are connected to " ++ num (length (filter w_linked ws)) ++ lit " of them.";
              lit "A '*' means that you are connected to the area."; lit "A '%' means that you are the feed for the area."]
  end).
Proof.
  intros H. cbv zeta. unfold taillines, linked. rewrite map_length.
  assert (F : length (filter w_linked (map torow es)) = length (filter se_att es)).
  { clear. induction es as [|e es IH]; [reflexivity|]. cbn [map filter]. unfold torow at 1. cbn [w_linked]. destruct (se_att e); cbn [length]; rewrite IH; reflexivity. }
  rewrite F, !shown_num; auto. pose proof (filter_length_le se_att es). lia.
Qed.

(** every entry is sound *)
Lemma linetag_cstring l : cstring l -> cstring (linetag l).
Proof. unfold linetag. induction 1 as [|c l Hc Hl IH]; [constructor|]. cbn [spanning]. destruct (visible c); [constructor; auto|constructor]. Qed.
Lemma unknown_in ws w : forall k, In w (unknown k ws) -> In w ws.
Proof. induction ws as [|x ws IH]; intros k H; [exact H|]. cbn [unknown] in H. destruct (existsb _ k); [right; eauto|]. destruct H as [->|H]; [left; auto|right; eauto]. Qed.
Lemma contents_fine names cfg day areas t c i w : setup_fine names cfg day areas i -> In w (contents cfg day areas t c i) -> cstring (w_tag w) /\ group_ok (w_group w).
Proof.
  intros [Ha _ Hl] H. rewrite Forall_forall in Ha, Hl. unfold contents in H. apply in_app_iff in H as [H|H].
  - apply in_map_iff in H as (a & <- & H). apply filter_In in H as [H _]. destruct (Ha a H). split; auto.
  - unfold forwarded in H. destruct (_ && _); [|destruct H]. apply unknown_in in H. apply in_concat in H as (l & H & Hw). apply in_map_iff in H as (al & <- & H). apply filter_In in H as [H _].
    destruct (Hl al H) as [Hg Hls]. unfold offered in Hw. destruct (al_lines al) as [ls|]; [|destruct Hw]. apply filter_In in Hw as [Hw _]. apply in_map_iff in Hw as (x & <- & Hx).
    rewrite Forall_forall in Hls. split; [|exact Hg]. apply linetag_cstring. auto.
Qed.

(** ** The help file *)
Lemma fgets_line n l rest : Forall (fun c => c <> 10) l -> (length l < n)%nat -> fgets n (l ++ 10 :: rest) = (l ++ [10], rest).
Proof.
  revert n. induction l as [|c l IH]; intros [|n] Hf Hn; cbn [length] in Hn; try lia; cbn [app fgets].
  - reflexivity.
  - inversion Hf; subst. destruct (Z.eqb_spec c 10); [congruence|]. rewrite IH by (auto; lia). reflexivity.
Qed.
Lemma cstr_id l : Forall (fun c => 1 <= c < 256) l -> cstr l = l.
Proof. induction 1 as [|c l Hc Hl IH]; [reflexivity|]. cbn. destruct (Z.eqb_spec c 0); [lia|]. rewrite IH. reflexivity. Qed.
Lemma crlf_id l : Forall (fun c => c <> 13) l -> crlf (l ++ [10]) = l ++ [10].
Proof.
  intros H. unfold crlf. rewrite rev_app_distr. cbn [rev app]. destruct (rev l) as [|b r] eqn:E; [reflexivity|].
  assert (b <> 13). { rewrite Forall_forall in H. apply H. apply in_rev. rewrite E. left. reflexivity. }
  cbn [Z.eqb Pos.eqb andb]. destruct (Z.eqb_spec b 13); [congruence|reflexivity].
Qed.
Lemma help_ok ls : Forall helpline ls -> forall fuel, (length ls <= fuel)%nat -> helplines_ fuel (lines_lf ls) = ls.
Proof.
  induction 1 as [|l ls (H1 & H2 & _) Hl IH]; intros [|f] Hf; cbn [length] in Hf; try lia; try reflexivity.
  unfold lines_lf. cbn [map concat]. fold (lines_lf ls). cbn [helplines_]. unfold osFGets. rewrite <- app_assoc. cbn [app].
  destruct (l ++ 10 :: lines_lf ls) as [|x y] eqn:E; [destruct l; discriminate E|]. rewrite <- E. clear E x y. change (100 - 1)%nat with 99%nat.
  rewrite fgets_line; [|eapply Forall_impl; [|exact H1]; cbn; tauto|lia].
  assert (C : cstr (l ++ [10]) = l ++ [10]) by (apply cstr_id; apply Forall_app; split; [eapply Forall_impl; [|exact H1]; cbn; tauto|repeat constructor; lia]).
  rewrite C, crlf_id by (eapply Forall_impl; [|exact H1]; cbn; tauto).
  destruct (l ++ [10]) as [|x y] eqn:E; [destruct l; discriminate E|]. rewrite <- E. f_equal; [|apply IH; lia].
  rewrite app_length, Nat.add_sub. rewrite firstn_app, firstn_all, Nat.sub_diag. apply app_nil_r.
Qed.

(** ** A function that sorts *)
Section Isort.
  Variables (A : Type) (cmp : A -> A -> Z).
  Fixpoint insert (x : A) (l : list A) : list A :=
    match l with [] => [x] | y :: r => if cmp x y <=? 0 then x :: l else y :: insert x r end.
  Definition isort (l : list A) : list A := fold_right insert [] l.
  Lemma insert_perm x l : Permutation (insert x l) (x :: l).
  Proof. induction l as [|y r IH]; [reflexivity|]. cbn [insert]. destruct (_ <=? 0); [reflexivity|]. rewrite IH. apply perm_swap. Qed.
  Lemma isort_perm l : Permutation (isort l) l.
  Proof. induction l as [|x l IH]; [reflexivity|]. cbn [isort fold_right]. rewrite insert_perm. apply perm_skip. exact IH. Qed.
  Lemma isort_sorted l : (forall a b, In a l -> In b l -> cmp a b <= 0 <-> cmp b a >= 0) ->
    (forall a b c, In a l -> In b l -> In c l -> cmp a b <= 0 -> cmp b c <= 0 -> cmp a c <= 0) -> StronglySorted (fun a b => cmp a b <= 0) (isort l).
  Proof.
    intros H1 H2. induction l as [|x l IH]; [constructor|]. cbn [isort fold_right].
    assert (S : StronglySorted (fun a b => cmp a b <= 0) (isort l)) by (apply IH; [intros a b Ha Hb; apply H1; right; assumption|intros a b c Ha Hb Hc; apply H2; right; assumption]).
    assert (P : forall y, In y (isort l) -> In y l) by (intros y; apply Permutation_in, isort_perm).
    fold (isort l) in *. revert S P. generalize (isort l). clear IH. intros s S P.
    induction S as [|y s S IH Hy]; cbn [insert]; [repeat constructor|].
    destruct (Z.leb_spec (cmp x y) 0) as [L|L].
    - constructor; [constructor; auto|]. constructor; [exact L|]. rewrite Forall_forall in *. intros z Hz. eapply H2; [left; reflexivity| | |exact L|apply Hy; exact Hz]; right; apply P; [left; reflexivity|right; exact Hz].
    - constructor; [apply IH; intros z Hz; apply P; right; exact Hz|]. rewrite Forall_forall in *. intros z Hz. apply (Permutation_in z (insert_perm x s)) in Hz as [<-|Hz]; [|auto].
      apply H1; [right; apply P; left; reflexivity|left; reflexivity|lia].
  Qed.
End Isort.
Lemma isort_sorts A : sorts (@isort A).
Proof. intros cmp l H1 H2. split; [apply isort_perm|apply isort_sorted; auto]. Qed.
