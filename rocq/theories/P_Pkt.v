(** Lemmas about packets. *)
From Coq Require Import Sorting.Sorted Sorting.Permutation.
From Verif Require Import Base M_Node4D S_Node4D P_Node4D M_Pat M_Mem S_Mem P_Mem M_Cfg M_Str P_Str M_Fs P_Fs M_Pkt S_Pkt.

Lemma cstring_nonul l : cstring l -> ~ In 0 l.
Proof. intros H Hin. unfold cstring in H. rewrite Forall_forall in H. apply H in Hin. lia. Qed.

(** ** Header *)
Lemma pwfield_length pw : length (pwfield pw) = 8%nat.
Proof. unfold pwfield. rewrite app_length, firstn_length, repeat_length. lia. Qed.

Lemma nth_le16_0 z l : nth 0 (le16 z ++ l) 0 = z mod 256. Proof. reflexivity. Qed.

Lemma list8 {A} (l : list A) : length l = 8%nat -> exists a b c d e f g h, l = [a; b; c; d; e; f; g; h].
Proof.
  intros H. do 9 (destruct l as [|? l]; simpl in H; try lia). repeat eexists.
Qed.

Lemma u16_bytes x : is_u16 x -> x mod 256 + 256 * ((x / 256) mod 256) = x.
Proof. unfold is_u16. intros. zlia. Qed.

Lemma mkheader_length tm o d pw : length (mkheader tm o d pw) = 58%nat.
Proof.
  destruct tm as [[[[[yy mo] dd] hh] mi] ss]. unfold mkheader, le16.
  destruct (list8 _ (pwfield_length pw)) as (a & b & c & d' & e & f & g & h & ->). reflexivity.
Qed.

Lemma mkheader_pw tm o d pw : firstn 8 (skipn 26 (mkheader tm o d pw)) = pwfield pw.
Proof.
  destruct tm as [[[[[yy mo] dd] hh] mi] ss]. unfold mkheader, le16.
  destruct (list8 _ (pwfield_length pw)) as (a & b & c & d' & e & f & g & h & ->). reflexivity.
Qed.

Lemma cstr_pw pw : ~ In 0 pw -> (length pw <= 8)%nat -> cstr (pwfield pw) = pw.
Proof.
  intros H Hl. unfold pwfield. rewrite firstn_all2 by lia.
  destruct (8 - length pw)%nat eqn:E.
  - simpl. rewrite app_nil_r. clear E Hl. induction pw as [|c pw IH]; simpl; auto.
    destruct (Z.eqb_spec c 0) as [->|Hc]; [exfalso; apply H; left; auto|]. rewrite IH; auto.
    intros Hx; apply H; right; auto.
  - simpl. clear E Hl. induction pw as [|c pw IH]; simpl; auto.
    destruct (Z.eqb_spec c 0) as [->|Hc]; [exfalso; apply H; left; auto|]. rewrite IH; auto.
    intros Hx; apply H; right; auto.
Qed.

Lemma mkheader_type tm o d pw : get16 (mkheader tm o d pw) 18 = 2.
Proof.
  destruct tm as [[[[[yy mo] dd] hh] mi] ss]. unfold mkheader, le16, get16.
  destruct (list8 _ (pwfield_length pw)) as (a & b & c & d' & e & f & g & h & ->). reflexivity.
Qed.

Lemma hdr_addr_mk tm o d pw : valid4d o -> valid4d d ->
  hdr_addr (mkheader tm o d pw) =
  (N4 (zone o) (if negb (point o =? 0) && (net o =? 65535) then 0 else net o) (node o) (point o),
   N4 (if zone o =? 0 then 0 else zone d) (net d) (node d) (point d)).
Proof.
  intros (Hz & Hn & Hf & Hp) (Hz' & Hn' & Hf' & Hp').
  destruct tm as [[[[[yy mo] dd] hh] mi] ss]. unfold mkheader, le16, hdr_addr, get16.
  destruct (list8 _ (pwfield_length pw)) as (a & b & c & d' & e & f & g & h & ->).
  cbn [app nth]. change (0 mod 256 + 256 * (0 / 256 mod 256) =? 2) with false. cbv iota.
  rewrite !(u16_bytes (zone o)), !(u16_bytes (point o)), !(u16_bytes (net o)), !(u16_bytes (node o)) by auto.
  rewrite !(u16_bytes (zone d)), !(u16_bytes (point d)), !(u16_bytes (net d)), !(u16_bytes (node d)) by auto.
  change ((256 mod 256 =? 1 / 256 mod 256) && (256 / 256 mod 256 =? 1 mod 256)) with true. cbv iota.
  change (0 mod 256 + 256 * (0 / 256 mod 256)) with 0.
  destruct (Z.eqb_spec (zone o) 0) as [->|E]; reflexivity.
Qed.

(** ** Strings and lines *)
Lemma ReadNull_ok n s r : field n s -> ReadNull n (s ++ 0 :: r) = (s, RnOk, r).
Proof.
  intros [H Hl]. revert n H Hl; induction s as [|c s IH]; intros n H Hl; simpl.
  - destruct n; reflexivity.
  - simpl in Hl. assert (Hc : c <> 0) by (intros ->; apply H; left; auto).
    destruct n as [|n]; [simpl in Hl; lia|]. cbn [ReadNull app].
    destruct (Z.eqb_spec c 0); [contradiction|].
    rewrite IH; [reflexivity| |lia]. intros Hx; apply H; right; auto.
Qed.
Lemma ReadNull_inv n s l r : ReadNull n s = (l, RnOk, r) -> s = l ++ 0 :: r /\ field n l.
Proof.
  revert s l r; induction n as [|n IH]; intros [|c s] l r; cbn [ReadNull]; intros H; try discriminate.
  - destruct (Z.eqb_spec c 0) as [->|Hc]; inversion H; subst. split; auto. split; simpl; [tauto|lia].
  - destruct (Z.eqb_spec c 0) as [->|Hc].
    + inversion H; subst. split; auto. split; simpl; [tauto|lia].
    + destruct (ReadNull n s) as [[l' e] r'] eqn:E. inversion H; subst.
      destruct (IH _ _ _ E) as (-> & H1 & H2). split; auto. split; [|simpl; lia].
      intros [Hx|Hx]; [lia|auto].
Qed.

Lemma cutline_cat n t l r : cutline n t = (l, r) -> l ++ r = t.
Proof.
  revert t l r; induction n as [|n IH]; intros [|c t] l r; cbn [cutline]; intros H; try (inversion H; reflexivity).
  destruct ((c =? 10) || (c =? 13)); [inversion H; reflexivity|].
  destruct (cutline n t) as [l' r'] eqn:E. inversion H; subst. rewrite <- (IH _ _ _ E). reflexivity.
Qed.
Lemma cutline_progress n c t l r : cutline (S n) (c :: t) = (l, r) -> l <> [] /\ (length r <= length t)%nat.
Proof.
  intros H. pose proof (cutline_cat _ _ _ _ H) as Hc. cbn [cutline] in H.
  destruct ((c =? 10) || (c =? 13)); [inversion H; subst; split; [discriminate|auto]|].
  destruct (cutline n t) as [l' r'] eqn:E. inversion H; subst. split; [discriminate|].
  cbn [app] in Hc. inversion Hc. rewrite app_length. lia.
Qed.

(** ReadCR on a text followed by NUL *)
Lemma ReadCR_text n t rest l r : ~ In 0 t -> cutline n t = (l, r) ->
  exists e, ReadCR n (t ++ 0 :: rest) = (l, e, match e with CrNul => rest | _ => r ++ 0 :: rest end) /\
    e <> CrEof /\ (e = CrNul -> r = []) /\ (t = [] -> n <> O -> e = CrNul).
Proof.
  revert t l r; induction n as [|n IH]; intros [|c t] l r Ht H; cbn [cutline] in H.
  - inversion H; subst. exists CrFull. repeat split; congruence.
  - inversion H; subst. exists CrFull. repeat split; congruence.
  - inversion H; subst. exists CrNul. repeat split; congruence.
  - cbn [app ReadCR]. assert (Hc : c <> 0) by (intros ->; apply Ht; left; auto).
    destruct (Z.eqb_spec c 0); [contradiction|]. destruct ((c =? 10) || (c =? 13)).
    + inversion H; subst. exists CrLine. repeat split; congruence.
    + destruct (cutline n t) as [l' r'] eqn:E. inversion H; subst.
      destruct (IH t l' r) as (e & -> & H1 & H2 & H3); auto; [intros Hx; apply Ht; right; auto|].
      exists e. repeat split; auto. discriminate.
Qed.

Lemma pieces_go_fuel f g t : (length t <= f)%nat -> (length t <= g)%nat -> pieces_go f t = pieces_go g t.
Proof.
  revert g t; induction f as [|f IH]; intros [|g] [|c t] Hf Hg; simpl in Hf, Hg; try lia; try reflexivity.
  cbn [pieces_go]. destruct (cutline 198 (c :: t)) as [l r] eqn:E.
  apply (cutline_progress 197) in E as [_ E]. f_equal. apply IH; lia.
Qed.
Lemma pieces_nil : pieces [] = [].
Proof. reflexivity. Qed.
Lemma pieces_eq t l r : t <> [] -> cutline 198 t = (l, r) -> pieces t = l :: pieces r.
Proof.
  intros Hn E. unfold pieces. destruct t as [|c t]; [contradiction|]. cbn [length pieces_go]. rewrite E. f_equal.
  apply (cutline_progress 197) in E as [_ E]. apply pieces_go_fuel; auto.
Qed.
Lemma pieces_ind (P : list Z -> Prop) : P [] ->
  (forall t l r, t <> [] -> cutline 198 t = (l, r) -> P r -> P t) -> forall t, P t.
Proof.
  intros H0 Hs t. remember (length t) as n eqn:En. assert (Hn : (length t <= n)%nat) by lia. clear En.
  revert t Hn; induction n as [|n IH]; intros [|c t] Hn; simpl in Hn; auto; try lia.
  destruct (cutline 198 (c :: t)) as [l r] eqn:E. apply (Hs _ l r); [discriminate|auto|]. apply IH.
  apply (cutline_progress 197) in E as [_ E]. lia.
Qed.
Lemma pieces_concat t : concat (pieces t) = t.
Proof.
  induction t as [|t l r Hn E IH] using pieces_ind; auto.
  rewrite (pieces_eq _ _ _ Hn E). cbn [concat]. rewrite IH. eapply cutline_cat; eauto.
Qed.

Lemma cutline_eol n t u l r : t <> [] -> eoltext t -> cutline n t = (l, r) -> cutline n (t ++ u) = (l, r ++ u) /\ eoltext r.
Proof.
  intros Hn [->|(q & c & -> & Hc)]; [contradiction|]. clear Hn.
  assert (Hcb : (c =? 10) || (c =? 13) = true) by lia.
  revert q l r; induction n as [|n IH]; intros q l r H; cbn [cutline] in H.
  - inversion H; subst. split; [reflexivity|]. right. eauto.
  - destruct q as [|d q]; cbn [app cutline] in *.
    + rewrite Hcb in *. inversion H; subst. split; [reflexivity|left; auto].
    + destruct ((d =? 10) || (d =? 13)).
      * inversion H; subst. split; [reflexivity|right; eauto].
      * destruct (cutline n (q ++ [c])) as [l' r'] eqn:E. inversion H; subst.
        destruct (IH q l' r E) as [-> H2]. auto.
Qed.
Lemma pieces_app t u : eoltext t -> pieces (t ++ u) = pieces t ++ pieces u.
Proof.
  induction t as [|t l r Hn E IH] using pieces_ind; intros He; auto.
  destruct (cutline_eol _ _ u _ _ Hn He E) as [E' Hr].
  rewrite (pieces_eq (t ++ u) l (r ++ u)); [|destruct t; [contradiction|discriminate]|auto].
  rewrite (pieces_eq t l r) by auto. rewrite IH by auto. reflexivity.
Qed.
Lemma cutline_full n t l r : cutline n t = (l, r) -> (r = [] \/ (exists q c, l = q ++ [c] /\ (c = 13 \/ c = 10)) \/ length l = n).
Proof.
  revert t l r; induction n as [|n IH]; intros [|c t] l r; cbn [cutline]; intros H; try (inversion H; subst; auto; fail).
  destruct ((c =? 10) || (c =? 13)) eqn:Ec.
  - inversion H; subst. right; left. exists [], c. split; [reflexivity|lia].
  - destruct (cutline n t) as [l' r'] eqn:E. inversion H; subst.
    destruct (IH _ _ _ E) as [H1|[(q & d & -> & Hd)|H1]]; auto.
    + right; left. exists (c :: q), d. auto.
    + right; right. simpl. auto.
Qed.
Lemma pieces_crline t : cstring t -> eoltext t -> Forall crline (pieces t).
Proof.
  induction t as [|t l r Hn E IH] using pieces_ind; intros Hc He; [constructor|].
  rewrite (pieces_eq _ _ _ Hn E). pose proof (cutline_cat _ _ _ _ E) as Ec. rewrite <- Ec in Hc.
  apply cstring_app in Hc as [Hcl Hcr]. destruct (cutline_eol _ _ [] _ _ Hn He E) as [_ Hr].
  constructor; [|auto]. split; auto.
  destruct (cutline_full _ _ _ _ E) as [Hx|[Hx|Hx]]; [|auto|right; lia].
  subst r. rewrite app_nil_r in Ec. subst l. left. destruct He as [->|He]; [contradiction|auto].
Qed.
Lemma pieces_line l : l <> [] -> Forall (fun c => c <> 13 /\ c <> 10) l -> (length l < 198)%nat -> pieces (l ++ [13]) = [l ++ [13]].
Proof.
  intros Hn Hl Hlen. assert (E : forall n, (length l < n)%nat -> cutline n (l ++ [13]) = (l ++ [13], [])).
  { clear Hn Hlen. induction Hl as [|c l [H1 H2] Hl IH]; intros [|n] Hlen; simpl in Hlen; try lia; [reflexivity|].
    cbn [app cutline]. destruct (Z.eqb_spec c 10); [contradiction|]. destruct (Z.eqb_spec c 13); [contradiction|]. cbn [orb].
    rewrite IH by lia. reflexivity. }
  rewrite (pieces_eq _ (l ++ [13]) []); [reflexivity|destruct l; discriminate|auto].
Qed.
Lemma pieces_lines ls : Forall (fun l => l <> [] /\ Forall (fun c => c <> 13 /\ c <> 10) l /\ (length l < 198)%nat) ls ->
  pieces (concat (map (fun l => l ++ [13]) ls)) = map (fun l => l ++ [13]) ls.
Proof.
  induction 1 as [|l ls (H1 & H2 & H3) Hls IH]; auto. cbn [map concat]. rewrite pieces_app; [|right; eauto].
  rewrite IH, pieces_line by auto. reflexivity.
Qed.

Lemma addlines_app a b mm : addlines mm (a ++ b) = obind (addlines mm a) (fun m => addlines m b).
Proof. revert mm; induction a as [|l a IH]; intros mm; simpl; auto. destruct (mmAddLine mm l); auto. Qed.

Lemma readtext_spec fuel t mm rest : ~ In 0 t -> (length t < fuel)%nat ->
  readtext fuel mm (t ++ 0 :: rest) =
  match addlines mm (pieces t) with Some mm' => TxOk mm' rest | None => TxUB end.
Proof.
  revert fuel mm. induction t as [|t l r Hn E IH] using pieces_ind; intros fuel mm Ht Hf; (destruct fuel as [|fuel]; [lia|]).
  - cbn [readtext]. reflexivity.
  - cbn [readtext]. destruct (ReadCR_text 198 t rest l r Ht E) as (e & Er & H1 & H2 & H3).
    change CRBUF with 198%nat. rewrite Er. rewrite (pieces_eq _ _ _ Hn E). cbn [addlines].
    destruct t as [|c t]; [contradiction|]. destruct (cutline_progress 197 _ _ _ _ E) as [Hl Hr].
    pose proof (cutline_cat _ _ _ _ E) as Ec. destruct l as [|c' l]; [contradiction|].
    assert (Hr0 : ~ In 0 r) by (intros Hx; apply Ht; rewrite <- Ec; apply in_or_app; auto).
    simpl in Hf. destruct e; try congruence.
    + destruct (mmAddLine mm (c' :: l)) as [mm'|]; [|reflexivity]. apply IH; auto. lia.
    + rewrite (H2 eq_refl). destruct (mmAddLine mm (c' :: l)) as [mm'|]; reflexivity.
    + destruct (mmAddLine mm (c' :: l)) as [mm'|]; [|reflexivity]. apply IH; auto. lia.
Qed.

(** ** Frame of mmAddLine *)
Definition frame (m : memmsg) := (To m, From m, Subject m, DateTime m, Attr m, Cost m, PktOrig m, PktDest m, Area m).
Lemma ProcessKludge_frame2 mm k mm' : ProcessKludge mm k = Some mm' -> frame mm' = frame mm /\
  (Area mm <> [] -> OrigNode mm' = OrigNode mm /\ DestNode mm' = DestNode mm).
Proof.
  set (P := fun m' m => frame m' = frame m).
  set (Q := fun m' m => P m' m /\ OrigNode m' = OrigNode m /\ DestNode m' = DestNode m).
  assert (Hom : forall {A} (o : option A) (g : A -> memmsg) m m' (R : memmsg -> memmsg -> Prop), (forall s, R (g s) m) -> option_map g o = Some m' -> R m' m).
  { intros A [a|] g m m' R Hg; simpl; intros E; inversion E; auto. }
  assert (H0 : Q (pk_rescanned mm k) mm).
  { unfold pk_rescanned. destruct (prefixb _ k); repeat split; reflexivity. }
  assert (H1 : forall m m', pk_msgid m k = Some m' -> Q m' m).
  { intros m m'. unfold pk_msgid. destruct (prefixb _ k); [|intros E; inversion E; repeat split; reflexivity].
    apply Hom. intros; repeat split; reflexivity. }
  assert (H2 : forall m m', pk_reply m k = Some m' -> Q m' m).
  { intros m m'. unfold pk_reply. destruct (prefixb _ k); [|intros E; inversion E; repeat split; reflexivity].
    apply Hom. intros; repeat split; reflexivity. }
  assert (H3 : forall m m', pk_fmpt m k = Some m' -> P m' m).
  { intros m m'. unfold pk_fmpt. destruct (prefixb _ k); [|intros E; inversion E; reflexivity].
    apply Hom. intros; reflexivity. }
  assert (H4 : forall m m', pk_topt m k = Some m' -> P m' m).
  { intros m m'. unfold pk_topt. destruct (prefixb _ k); [|intros E; inversion E; reflexivity].
    apply Hom. intros; reflexivity. }
  assert (H5 : forall m m', pk_intl m k = Some m' -> P m' m).
  { intros m m'. unfold pk_intl. destruct (prefixb _ k); [|intros E; inversion E; reflexivity].
    destruct (from k _) as [s|]; [|discriminate].
    destruct (takeuntil (fun c => c =? 32) 59 s) as [b r].
    destruct (takeuntil _ 59 _) as [b2 r2]. intros E; inversion E.
    destruct (Parse4D b), (Parse4D b2); reflexivity. }
  intros E. unfold ProcessKludge in E.
  destruct (pk_msgid (pk_rescanned mm k) k) as [m1|] eqn:E1; [|discriminate]. cbn [obind] in E.
  destruct (pk_reply m1 k) as [m2|] eqn:E2; [|discriminate]. cbn [obind] in E.
  apply H1 in E1. apply H2 in E2.
  assert (HQ : Q m2 mm) by (unfold Q, P in *; intuition congruence).
  destruct HQ as (HP & HO & HD). assert (Ha : Area m2 = Area mm) by (unfold P, frame in HP; congruence).
  destruct (Area m2) eqn:Ea.
  - destruct (pk_fmpt m2 k) as [m3|] eqn:E3; [|discriminate]. cbn [obind] in E.
    destruct (pk_topt m3 k) as [m4|] eqn:E4; [|discriminate]. cbn [obind] in E.
    apply H3 in E3. apply H4 in E4. apply H5 in E. split; [unfold P in *; congruence|congruence].
  - inversion E; subst. split; auto.
Qed.
Lemma mmAddLine_frame mm l mm' : mmAddLine mm l = Some mm' -> frame mm' = frame mm /\
  (Area mm <> [] -> OrigNode mm' = OrigNode mm /\ DestNode mm' = DestNode mm).
Proof.
  unfold mmAddLine. set (echo := match Area mm with [] => false | _ => true end).
  assert (Ht : forall m, frame m = frame mm -> OrigNode m = OrigNode mm -> DestNode m = DestNode mm ->
    option_map (set_TextChunks m) (mmAddBuf (TextChunks m) l) = Some mm' ->
    frame mm' = frame mm /\ (Area mm <> [] -> OrigNode mm' = OrigNode mm /\ DestNode mm' = DestNode mm)).
  { intros m H1 H2 H3. destruct (mmAddBuf _ _); simpl; intros E; inversion E; subst. split; [exact H1|auto]. }
  destruct (echo && prefixb (lit "SEEN-BY:") l).
  { destruct (from l 9); [|discriminate]. destruct (AddSeenby _ _); simpl; intros E; inversion E; auto. }
  destruct (echo && prefixb (SOH ++ lit "PATH:") l).
  { destruct (from l 7); simpl; intros E; inversion E; auto. }
  destruct (echo && prefixb (lit " * Origin: ") l).
  { destruct (ExtractAddress l); try discriminate; apply Ht; reflexivity. }
  destruct (match l with [] => false | c :: _ => c =? 1 end).
  - destruct (ProcessKludge mm l) as [m|] eqn:E; [|discriminate].
    destruct (ProcessKludge_frame2 _ _ _ E) as [H1 H2]. intros H.
    destruct (mmAddBuf _ _); simpl in H; inversion H; subst. split; [exact H1|exact H2].
  - apply Ht; reflexivity.
Qed.
Lemma addlines_frame ls mm mm' : addlines mm ls = Some mm' -> frame mm' = frame mm /\
  (Area mm <> [] -> OrigNode mm' = OrigNode mm /\ DestNode mm' = DestNode mm).
Proof.
  revert mm; induction ls as [|l ls IH]; intros mm E; simpl in E; [inversion E; auto|].
  destruct (mmAddLine mm l) as [m|] eqn:El; [|discriminate].
  destruct (mmAddLine_frame _ _ _ El) as [H1 H2]. destruct (IH _ E) as [H3 H4].
  assert (Area m = Area mm) by (unfold frame in H1; congruence).
  split; [congruence|]. intros Ha. destruct (H2 Ha), H4; [congruence|]. split; congruence.
Qed.

(** netmail: every line is stored *)
Lemma addlines_net ls mm : Area mm = [] -> chunks_ok (TextChunks mm) -> Forall crline ls ->
  exists mm', addlines mm ls = Some mm' /\ mmtext mm' = mmtext mm ++ concat ls.
Proof.
  intros Ha Hch H. revert mm Ha Hch. induction H as [|l ls Hl Hls IH]; intros mm Ha Hch.
  - exists mm. simpl. rewrite app_nil_r. auto.
  - destruct (mmAddLine_text mm l Hch Hl) as (m & E & Ht & Hch' & _ & _ & Ha' & _).
    { unfold is_echo. congruence. }
    destruct (IH m) as (mm' & E' & Ht'); [congruence|auto|]. exists mm'. simpl. rewrite E. split; auto.
    rewrite Ht', Ht, <- app_assoc. reflexivity.
Qed.

(** ** Reading a message that was written *)
Lemma wrongpw_accepted cfg cn tm o d pw mm : ~ In 0 pw -> (length pw <= 8)%nat -> pw_accepted cfg cn pw ->
  wrongpw cfg cn (mkheader tm o d pw) mm = false.
Proof.
  intros H0 Hl H. unfold wrongpw. destruct cn as [c|]; auto. rewrite mkheader_pw, cstr_pw by auto.
  destruct (_ || _); auto. destruct H as [H|[H|H]].
  - rewrite H. rewrite andb_false_r. reflexivity.
  - rewrite H. reflexivity.
  - unfold streqi. rewrite H, streq_refl. rewrite andb_false_r. reflexivity.
Qed.

Section Reading.
  Context {S : Type} (cfg : pktcfg) (handle : S -> memmsg -> S * bool) (cn : option cnode) (h : list Z) (po pd : node4d).
  Hypothesis Hpw : forall mm, wrongpw cfg cn h mm = false.

  Definition give (mm : memmsg) (st : S) (rest : list Z) : mres :=
    let '(st', ok) := handle st mm in if ok then MrNext st' rest else MrStop (PkFalse st').
  Definition tossed (mm : memmsg) : memmsg := set_Flags mm (Z.lor (Flags mm) MMFLAG_TOSSED).

  Lemma readmsg_strings ph dt to fr su s st : field 19 dt -> field 35 to -> field 35 fr -> field 71 su ->
    readmsg cfg handle cn h po pd ph (dt ++ 0 :: to ++ 0 :: fr ++ 0 :: su ++ 0 :: s) st =
    readbody cfg handle cn h (set_Subject (set_From (set_To (set_DateTime (msg_init cfg po pd ph) dt) to) fr) su) s st.
  Proof.
    intros H1 H2 H3 H4. unfold readmsg. rewrite (ReadNull_ok 19 dt) by auto. rewrite (ReadNull_ok 35 to) by auto.
    rewrite (ReadNull_ok 35 fr) by auto. rewrite (ReadNull_ok 71 su) by auto. reflexivity.
  Qed.

  Lemma cutline_area a u : ~ In 13 a -> ~ In 10 a -> (length a <= 79)%nat ->
    cutline 198 (lit "AREA:" ++ a ++ [13] ++ u) = (lit "AREA:" ++ a ++ [13], u).
  Proof.
    intros H1 H2 Hl. replace (lit "AREA:" ++ a ++ [13] ++ u) with ((lit "AREA:" ++ a) ++ 13 :: u) by (rewrite <- app_assoc; reflexivity).
    replace (lit "AREA:" ++ a ++ [13]) with ((lit "AREA:" ++ a) ++ [13]) by (rewrite <- app_assoc; reflexivity).
    assert (Hx : Forall (fun c => c <> 13 /\ c <> 10) (lit "AREA:" ++ a)).
    { apply Forall_app; split; [litc; repeat constructor; lia|]. apply Forall_forall. intros c Hc. split; intros ->; auto. }
    assert (Hlen : (length (lit "AREA:" ++ a) < 198)%nat) by (rewrite app_length; simpl; lia).
    remember 198%nat as n eqn:En. clear En. revert n Hlen.
    induction Hx as [|c l [Hc1 Hc2] Hx IH]; intros [|n] Hlen; simpl in Hlen; try lia; [reflexivity|].
    cbn [app cutline]. destruct (Z.eqb_spec c 10); [contradiction|]. destruct (Z.eqb_spec c 13); [contradiction|]. cbn [orb].
    rewrite IH by lia. reflexivity.
  Qed.

  Lemma striplead_id a : (forall r, a <> 32 :: r) -> striplead a = a.
  Proof. destruct a as [|c a]; auto. intros H. simpl. destruct (Z.eqb_spec c 32) as [->|]; auto. exfalso. eapply H; reflexivity. Qed.
  Lemma striptrail_cr a : striptrail a = a -> striptrail (a ++ [13]) = a.
  Proof.
    induction a as [|c a IH]; intros H; [reflexivity|]. cbn [app striptrail] in *.
    destruct (striptrail a) as [|x y] eqn:E.
    - destruct a as [|d a]; [|destruct (isstrip c); inversion H].
      cbn [app]. change (striptrail [13]) with (@nil Z). exact H.
    - injection H as Hc. rewrite (IH Hc). rewrite <- Hc. reflexivity.
  Qed.
  Lemma area_back a : area_ok a -> stripleadtrail (firstn 79 (a ++ [13])) = a.
  Proof.
    intros (Hn & _ & _ & _ & Hl & Hs & Ht). unfold stripleadtrail.
    destruct (Nat.eq_dec (length a) 79) as [E|E].
    - rewrite firstn_app, firstn_all2 by lia. replace (79 - length a)%nat with O by lia. simpl. rewrite app_nil_r.
      rewrite striplead_id; auto.
    - rewrite firstn_all2 by (rewrite app_length; simpl; lia). rewrite striplead_id.
      + apply striptrail_cr; auto.
      + intros r. destruct a as [|c a]; [contradiction|]. intros Hx. inversion Hx; subst. eapply Hs; reflexivity.
  Qed.

  Lemma readbody_echo mm a u rest st : area_ok a -> cstring u ->
    readbody cfg handle cn h mm (lit "AREA:" ++ a ++ [13] ++ u ++ 0 :: rest) st =
    match addlines (set_Area mm a) (pieces u) with
    | Some mm' => give (tossed mm') st rest
    | None => MrStop PkUB
    end.
  Proof.
    intros Ha Hu. pose proof Ha as (Hn & Hc & H13 & H10 & Hl & _).
    assert (Hno : ~ In 0 (lit "AREA:" ++ a ++ [13] ++ u)).
    { apply cstring_nonul. repeat (apply cstring_app; split); auto; litc; repeat constructor; lia. }
    destruct (ReadCR_text 198 _ rest _ _ Hno (cutline_area a u H13 H10 Hl)) as (e & Er & H1 & H2 & _).
    unfold readbody. replace (lit "AREA:" ++ a ++ [13] ++ u ++ 0 :: rest) with ((lit "AREA:" ++ a ++ [13] ++ u) ++ 0 :: rest).
    2:{ rewrite <- !app_assoc. reflexivity. }
    change CRBUF with 198%nat. rewrite Er.
    replace (prefixb (lit "AREA:") (lit "AREA:" ++ a ++ [13])) with true.
    2:{ symmetry. apply prefixb_spec. eexists; reflexivity. }
    change (skipn 5 (lit "AREA:" ++ a ++ [13])) with (a ++ [13]). rewrite area_back, Hpw by auto.
    pose proof (cstring_nonul _ Hu) as Hu0. unfold give.
    destruct e; try congruence; rewrite ?readtext_spec by (auto; rewrite app_length; simpl; lia);
      [| |]; try (destruct (addlines (set_Area mm a) (pieces u)); reflexivity).
    rewrite (H2 eq_refl). reflexivity.
  Qed.

  Lemma mmAddLine_nil mm : chunks_ok (TextChunks mm) -> Area mm = [] ->
    exists mm', mmAddLine mm [] = Some mm' /\ mmtext mm' = mmtext mm.
  Proof.
    intros Hch Ha. unfold mmAddLine. rewrite Ha. cbn [andb].
    destruct (mmAddBuf_spec (TextChunks mm) [] Hch) as (cs & -> & E & _). cbn [option_map].
    eexists; split; [reflexivity|]. unfold mmtext; simpl. rewrite E, app_nil_r. reflexivity.
  Qed.

  Lemma readbody_net mm t : cstring t -> eoltext t -> ~ starts_with (lit "AREA:") t ->
    chunks_ok (TextChunks mm) -> Area mm = [] ->
    exists mm', (forall rest st, readbody cfg handle cn h mm (t ++ 0 :: rest) st = give (tossed mm') st rest) /\
      frame mm' = frame mm /\ mmtext mm' = mmtext mm ++ t /\
      (t <> [] -> addlines mm (pieces t) = Some mm').
  Proof.
    intros Hc He Hs Hch Ha. pose proof (cstring_nonul _ Hc) as H0.
    destruct (cutline 198 t) as [l r] eqn:E.
    assert (Hp : prefixb (lit "AREA:") l = false).
    { apply prefixb_false. intros (q & Hq). apply Hs. rewrite <- (cutline_cat _ _ _ _ E), Hq. exists (q ++ r). rewrite app_assoc. reflexivity. }
    destruct t as [|c t].
    - cbn in E. inversion E; subst. destruct (mmAddLine_nil mm Hch Ha) as (mm' & E1 & E2).
      exists mm'. split; [|split; [|split]].
      + intros rest st. unfold readbody. cbn [app ReadCR CRBUF]. change (0 =? 0) with true. cbv iota.
        change (prefixb (lit "AREA:") []) with false. cbv iota. rewrite E1, Hpw. reflexivity.
      + eapply mmAddLine_frame; eauto.
      + rewrite app_nil_r. auto.
      + congruence.
    - destruct (addlines_net (pieces (c :: t)) mm Ha Hch) as (mm' & E1 & E2); [apply pieces_crline; auto|].
      exists mm'. split; [|split; [|split]].
      + intros rest st. unfold readbody. destruct (ReadCR_text 198 _ rest _ _ H0 E) as (e & Er & H1 & H2 & _).
        change CRBUF with 198%nat. rewrite Er, Hp. rewrite (pieces_eq (c :: t) l r) in E1 by (auto; discriminate).
        cbn [addlines] in E1. destruct (mmAddLine mm l) as [m|]; [|discriminate]. rewrite Hpw.
        assert (Hr0 : ~ In 0 r).
        { intros Hx. apply H0. rewrite <- (cutline_cat _ _ _ _ E). apply in_or_app; auto. }
        destruct e; try congruence.
        * rewrite readtext_spec by (auto; rewrite app_length; simpl; lia). rewrite E1. reflexivity.
        * rewrite (H2 eq_refl) in E1. inversion E1; subst. reflexivity.
        * rewrite readtext_spec by (auto; rewrite app_length; simpl; lia). rewrite E1. reflexivity.
      + eapply addlines_frame; eauto.
      + rewrite E2, pieces_concat. reflexivity.
      + auto.
  Qed.

  (** a byte string that is read as a message *)
  Definition reads (b : list Z) (mm : memmsg) : Prop :=
    (14 <= length b)%nat /\ get16 b 0 = 2 /\
    forall st rest, readmsg cfg handle cn h po pd (firstn 14 b) (skipn 14 b ++ rest) st = give mm st rest.

  Lemma overlay14 old b : length old = 14%nat -> (14 <= length b)%nat -> overlay old (firstn 14 b) = firstn 14 b.
  Proof.
    intros Ho Hb. unfold overlay. rewrite firstn_length, Nat.min_l by auto. rewrite skipn_all2 by lia. apply app_nil_r.
  Qed.
  Lemma get16_firstn n b i : (i + 1 < n)%nat -> get16 (firstn n b) i = get16 b i.
  Proof.
    intros H. unfold get16. rewrite <- (firstn_skipn n b) at 3 4.
    destruct (Nat.le_gt_cases n (length b)) as [Hn|Hn].
    - rewrite !app_nth1 by (rewrite firstn_length; lia). reflexivity.
    - rewrite skipn_all2 by lia. rewrite app_nil_r. reflexivity.
  Qed.
  Lemma readmsgs_deliver bs ms : Forall2 reads bs ms -> forall fuel i ph0 st, (length bs < fuel)%nat -> length ph0 = 14%nat ->
    readmsgs cfg handle (fun _ => false) fuel cn h po pd i (overlay ph0 (firstn 14 (concat bs ++ [0; 0]))) (skipn 14 (concat bs ++ [0; 0])) st =
    deliver handle st ms.
  Proof.
    induction 1 as [|b mm bs ms (Hl & Ht & Hr) Hbs IH]; intros fuel i ph0 st Hf Hph.
    - destruct fuel as [|fuel]; [simpl in Hf; lia|]. cbn [concat app]. reflexivity.
    - destruct fuel as [|fuel]; [simpl in Hf; lia|]. cbn [concat].
      assert (E1 : firstn 14 ((b ++ concat bs) ++ [0; 0]) = firstn 14 b).
      { rewrite <- app_assoc, firstn_app. replace (14 - length b)%nat with O by lia. simpl (firstn 0 _). apply app_nil_r. }
      assert (E2 : skipn 14 ((b ++ concat bs) ++ [0; 0]) = skipn 14 b ++ concat bs ++ [0; 0]).
      { rewrite <- app_assoc, skipn_app. replace (14 - length b)%nat with O by lia. reflexivity. }
      rewrite E1, E2, overlay14 by auto. cbn [readmsgs]. rewrite get16_firstn by lia. rewrite Ht. cbn [Z.eqb andb negb Pos.eqb].
      rewrite Hr. unfold give. cbn [deliver]. destruct (handle st mm) as [st' ok]. destruct ok; [|reflexivity].
      assert (Hlen : (2 <= length (firstn 14 (concat bs ++ [0%Z; 0%Z])))%nat).
      { rewrite firstn_length, app_length. cbn [length]. lia. }
      destruct (Nat.ltb_spec (length (firstn 14 (concat bs ++ [0%Z; 0%Z]))) 2); [lia|].
      apply IH; [simpl in Hf; lia|]. rewrite firstn_length. lia.
  Qed.
End Reading.

Lemma msgheader_split mm s : msgheader mm ++ s =
  (le16 2 ++ le16 (node (OrigNode mm)) ++ le16 (node (DestNode mm)) ++ le16 (net (OrigNode mm)) ++
  le16 (net (DestNode mm)) ++ le16 (Attr mm) ++ le16 (Cost mm)) ++
  (DateTime mm ++ 0 :: To mm ++ 0 :: From mm ++ 0 :: Subject mm ++ 0 :: s).
Proof. unfold msgheader. rewrite <- !app_assoc. cbn [app]. reflexivity. Qed.

Definition head14 (mm : memmsg) : list Z :=
  le16 2 ++ le16 (node (OrigNode mm)) ++ le16 (node (DestNode mm)) ++ le16 (net (OrigNode mm)) ++
  le16 (net (DestNode mm)) ++ le16 (Attr mm) ++ le16 (Cost mm).
Lemma head14_fields cfg po pd mm : hdr_ok mm -> msg_init cfg po pd (head14 mm) =
  MM (N4 0 (net (OrigNode mm)) (node (OrigNode mm)) 0) (N4 (zone po) (net (DestNode mm)) (node (DestNode mm)) 0) po pd null4d
     [] [] [] [] [] [] [] (Attr mm) (Cost mm) 0 (if pc_nosecurity cfg then MMFLAG_NOSECURITY else 0) [] [] [].
Proof.
  intros (_ & _ & _ & _ & Ha & Hc & (_ & H1 & H2 & _) & (_ & H3 & H4 & _)). unfold msg_init, head14, le16, get16. cbn [app nth].
  rewrite !u16_bytes by auto. reflexivity.
Qed.

Lemma tokseq_no10 last es ts : tokseq last es ts -> pairs_ok es -> Forall (fun t => Forall (fun c => c <> 10) t) ts.
Proof.
  assert (Hd : forall f, is_u16 f -> Forall (fun c => c <> 10) (dec f)).
  { intros f Hf. eapply Forall_impl; [|apply dec_digits; apply Hf]. unfold digit. intros; lia. }
  induction 1; intros Hp; inversion Hp as [|? ? [H1 H2] ?]; subst; constructor; auto; simpl in *.
  apply Forall_app; split; auto. apply Forall_cons; [lia|auto].
Qed.
Lemma sbline_line es line : sbline es line -> pairs_ok es -> Forall (fun c => c <> 13 /\ c <> 10) line /\ line <> [].
Proof.
  intros H Hp. destruct (sbline_shape es line H Hp) as [H13 _]. destruct H as (ts & Ht & _ & ->).
  pose proof (tokseq_no10 _ _ _ Ht Hp) as H10. split; [|litc; discriminate].
  apply Forall_forall. intros c Hc. split; [intros ->; auto|]. intros ->.
  apply in_app_iff in Hc as [Hc|Hc]; [revert Hc; litc; simpl; lia|].
  clear -H10 Hc. induction H10 as [|t ts Ht H10 IH]; [destruct Hc|]. rewrite body_cons in Hc.
  destruct Hc as [Hc|Hc]; [lia|]. apply in_app_iff in Hc as [Hc|Hc]; auto. rewrite Forall_forall in Ht. apply Ht in Hc. lia.
Qed.

Lemma addlines_path (ls : list (list Z)) : Forall pathline_ok ls -> forall mm, is_echo mm ->
  addlines mm (map (fun l => (1 :: lit "PATH: " ++ l) ++ [13]) ls) = Some (set_Path mm (Path mm ++ ls)).
Proof.
  induction 1 as [|l ls (Hn & Hc & H13 & H10 & Hl & Ht) Hls IH]; intros mm He; cbn [map addlines].
  - rewrite app_nil_r. destruct mm; reflexivity.
  - rewrite mmAddLine_path; auto.
    2:{ exists (32 :: l ++ [13]). litc. cbn [app]. reflexivity. }
    2:{ split; [|left; eexists; exists 13; split; [reflexivity|auto]].
        apply cstring_app; split; [|repeat constructor; lia]. change (cstring ([1] ++ lit "PATH: " ++ l)).
        repeat (apply cstring_app; split); auto; litc; repeat constructor; lia. }
    change (skipn 7 ((1 :: lit "PATH: " ++ l) ++ [13])) with (l ++ [13]).
    assert (E : mmAddPath (l ++ [13]) (Path mm) = Path mm ++ [l]).
    { unfold mmAddPath. destruct (l ++ [13]) as [|x y] eqn:E; [destruct l; discriminate|]. rewrite <- E. f_equal. f_equal.
      destruct (Nat.eq_dec (length l) 99) as [El|El].
      - rewrite firstn_app, firstn_all2 by lia. replace (99 - length l)%nat with O by lia. simpl. rewrite app_nil_r. auto.
      - rewrite firstn_all2 by (rewrite app_length; simpl; lia). apply striptrail_cr; auto. }
    rewrite E. rewrite IH by exact He. cbn [Path set_Path]. rewrite <- app_assoc. reflexivity.
Qed.

Lemma pathbytes_eq p : pathbytes p = concat (map (fun l => (1 :: lit "PATH: " ++ l) ++ [13]) (filter (fun l => negb (streq l [])) p)).
Proof.
  unfold pathbytes. induction p as [|l p IH]; auto. cbn [map concat]. rewrite IH.
  destruct l as [|c l]; [reflexivity|]. cbn [streq negb filter map concat]. f_equal.
Qed.

Lemma tiny_in cn ak x : In x (entries (tinylist cn ak)) <->
  (point (cn_node cn) = 0 /\ x = (net (cn_node cn), node (cn_node cn))) \/
  (point (ak_node ak) = 0 /\ x = (net (ak_node ak), node (ak_node ak))).
Proof.
  unfold tinylist. destruct (Z.eqb_spec (point (ak_node ak)) 0), (Z.eqb_spec (point (cn_node cn)) 0); rewrite ?add_in; cbn; intuition congruence.
Qed.
Lemma tiny_sort cn ak : exists l, mmSortNodes2D (tinylist cn ak) = Some l /\ Permutation (entries (tinylist cn ak)) (entries l).
Proof.
  assert (H : tinylist cn ak = [[]] \/ wfblocks (tinylist cn ak)).
  { unfold tinylist.
    assert (H1 : forall a b, wfblocks (mmAddNodes2DList [[]] a b)) by (intros; unfold mmAddNodes2DList; cbn; unfold NUM2D; lia).
    destruct (point (ak_node ak) =? 0), (point (cn_node cn) =? 0); auto using add_wf. }
  destruct H as [->|H].
  - exists [[]]. split; [reflexivity|auto].
  - destruct (mmSort_spec _ H) as (l & E & Hp & _). eauto.
Qed.

Lemma pairs_ok_in l : pairs_ok l <-> forall x, In x l -> is_u16 (fst x) /\ is_u16 (snd x).
Proof. apply Forall_forall. Qed.

(** the SEEN-BY list written *)
Lemma sb_for_spec mm cn ak : pairs_ok (entries (SeenBy mm)) -> wfblocks (SeenBy mm) ->
  valid4d (cn_node cn) -> valid4d (ak_node ak) ->
  exists sb mm', sb_for mm cn ak = Some (sb, mm') /\
    match sb with
    | Some l => pairs_ok (entries l) /\ forall x, In x (entries l) <-> sb_sent mm cn ak x
    | None => forall x, ~ sb_sent mm cn ak x
    end /\ (mm' = mm \/ exists l, mm' = set_SeenBy mm l /\ Permutation (entries (SeenBy mm)) (entries l) /\ wfblocks l).
Proof.
  intros Hp Hw Hc Ha. unfold sb_for, sb_sent.
  destruct (negb (zone (cn_node cn) =? zone (ak_node ak)) || flag (cn_flags cn) NODE_TINYSEENBY).
  - destruct (tiny_sort cn ak) as (l & E & P). rewrite E. cbn [option_map].
    exists (Some l), mm. split; [auto|]. split; [|auto].
    assert (Hin : forall x, In x (entries l) <->
      (point (cn_node cn) = 0 /\ x = (net (cn_node cn), node (cn_node cn))) \/
      (point (ak_node ak) = 0 /\ x = (net (ak_node ak), node (ak_node ak)))).
    { intros x. rewrite <- tiny_in. split; apply Permutation_in; auto. apply Permutation_sym; auto. }
    split; [|exact Hin]. apply pairs_ok_in. intros x Hx. apply Hin in Hx.
    destruct Hc as (_ & H1 & H2 & _), Ha as (_ & H3 & H4 & _). destruct Hx as [[_ ->]|[_ ->]]; auto.
  - destruct (flag (cn_flags cn) NODE_NOSEENBY); cbn [negb].
    + exists None, mm. auto.
    + destruct (mmSort_spec _ Hw) as (l & E & P & _ & Hw'). rewrite E. cbn [option_map].
      exists (Some l), (set_SeenBy mm l). split; [auto|]. split; [|right; exists l; auto].
      assert (Hin : forall x, In x (entries l) <-> In x (entries (SeenBy mm))).
      { intros x. split; apply Permutation_in; auto. apply Permutation_sym; auto. }
      split; [|exact Hin]. apply pairs_ok_in. intros x Hx. apply Hin in Hx. rewrite pairs_ok_in in Hp. auto.
Qed.

Lemma cstring_concat ls : Forall cstring ls -> cstring (concat ls).
Proof. induction 1; simpl; [constructor|]. apply cstring_app; auto. Qed.
Lemma eol_app a b : eoltext a -> eoltext b -> eoltext (a ++ b).
Proof.
  intros Ha [->|(r & c & -> & Hc)]; [rewrite app_nil_r; auto|]. right. exists (a ++ r), c. rewrite app_assoc. auto.
Qed.
Lemma eol_lines ls : eoltext (concat (map (fun l => l ++ [13]) ls)).
Proof. induction ls as [|l ls IH]; [left; auto|]. cbn [map concat]. apply eol_app; auto. right. eauto. Qed.

Lemma echo_from_valid cn ak : valid4d (ak_node ak) -> valid4d (cn_pktfrom cn) -> valid4d (echo_from cn ak).
Proof. unfold echo_from. destruct (flag _ _); auto. Qed.

Lemma filter_all {A} (f : A -> bool) l : Forall (fun x => f x = true) l -> filter f l = l.
Proof. induction 1 as [|x l H Hl IH]; simpl; auto. rewrite H, IH. auto. Qed.
Lemma filter_none {A} (f : A -> bool) l : Forall (fun x => f x = false) l -> filter f l = [].
Proof. induction 1 as [|x l H Hl IH]; simpl; auto. rewrite H. auto. Qed.

Section Items.
  Context {S : Type} (cfg : pktcfg) (handle : S -> memmsg -> S * bool) (cn : option cnode) (h : list Z) (po pd : node4d).
  Hypothesis Hpw : forall mm, wrongpw cfg cn h mm = false.

  Lemma reads_msg mm s mm' : hdr_ok mm ->
    (forall st rest, readbody cfg handle cn h
      (set_Subject (set_From (set_To (set_DateTime (msg_init cfg po pd (head14 mm)) (DateTime mm)) (To mm)) (From mm)) (Subject mm))
      (s ++ rest) st = give handle mm' st rest) ->
    reads cfg handle cn h po pd (msgheader mm ++ s) mm'.
  Proof.
    intros (H1 & H2 & H3 & H4 & _) H. rewrite msgheader_split. fold (head14 mm).
    split; [rewrite app_length; simpl; lia|]. split; [reflexivity|]. intros st rest.
    change (firstn 14 (head14 mm ++ DateTime mm ++ 0 :: To mm ++ 0 :: From mm ++ 0 :: Subject mm ++ 0 :: s)) with (head14 mm).
    change (skipn 14 (head14 mm ++ DateTime mm ++ 0 :: To mm ++ 0 :: From mm ++ 0 :: Subject mm ++ 0 :: s))
      with (DateTime mm ++ 0 :: To mm ++ 0 :: From mm ++ 0 :: Subject mm ++ 0 :: s).
    repeat (rewrite <- app_assoc; cbn [app]). rewrite readmsg_strings by auto. apply H.
  Qed.

  Lemma net_reads mm : net_ok mm -> exists mm', reads cfg handle cn h po pd (netbytes mm) mm' /\ net_same mm mm' /\
    PktOrig mm' = po /\ PktDest mm' = pd /\ Flags mm' = Z.lor (Flags mm') MMFLAG_TOSSED.
  Proof.
    intros (Hh & Hc & He & Hs). rewrite <- app_nil_r with (l := netbytes mm). unfold netbytes. 
    set (m1 := set_Subject (set_From (set_To (set_DateTime (msg_init cfg po pd (head14 mm)) (DateTime mm)) (To mm)) (From mm)) (Subject mm)).
    destruct (readbody_net cfg handle cn h Hpw m1 (mmtext mm)) as (mm' & Hr & Hf & Ht & _); auto; [constructor|].
    exists (tossed mm'). rewrite app_nil_r. unfold frame in Hf. subst m1. rewrite (head14_fields cfg po pd mm Hh) in Hf.
    cbn in Hf. injection Hf as E1 E2 E3 E4 E5 E6 E7 E8 E9. split; [|split; [|split; [|split]]].
    - apply reads_msg; auto. intros st rest. rewrite <- app_assoc. apply Hr.
    - split; [repeat split; auto|]. split; auto.
    - auto.
    - auto.
    - cbn. rewrite <- Z.lor_assoc, Z.lor_diag. reflexivity.
  Qed.

  Lemma echo_reads mm cnd ak : echo_ok mm -> valid4d (cn_node cnd) -> valid4d (ak_node ak) -> valid4d (cn_pktfrom cnd) ->
    exists b m2 mm', echobytes mm cnd ak = Some (b, m2) /\ reads cfg handle cn h po pd b mm' /\ echo_same mm cnd ak mm' /\
    PktOrig mm' = po /\ PktDest mm' = pd /\ Flags mm' = Z.lor (Flags mm') MMFLAG_TOSSED.
  Proof.
    intros (Hh & Ha & Hc & He & Hpl & Hsb & Hw & Hpa) Hvc Hva Hvp.
    unfold echobytes. set (m1 := set_OrigNode (set_DestNode (set_Type mm PKTS_ECHOMAIL) (cn_node cnd)) (echo_from cnd ak)).
    destruct (sb_for_spec m1 cnd ak Hsb Hw Hvc Hva) as (sb & m2 & Esb & Hsbin & _). rewrite Esb. cbn [obind].
    assert (Hsbt : exists sbtext gs, match sb with Some l => mmMakeSeenByBuf l | None => Some [] end = Some sbtext /\
      sbtext = concat (map (fun g : list node2d * list Z => snd g ++ [13]) gs) /\
      Forall (fun g => sbline (fst g) (snd g) /\ (length (snd g) <= 77)%nat /\ pairs_ok (fst g)) gs /\
      forall x, x <> (0, 0) -> (In x (concat (map fst gs)) <-> sb_sent mm cnd ak x)).
    { change (sb_sent mm cnd ak) with (sb_sent m1 cnd ak). destruct sb as [l|].
      - destruct Hsbin as [Hpl' Hin]. destruct (mmMakeSeenByBuf_spec l Hpl') as (text & gs & E & Et & Hg & Hcat).
        exists text, gs. split; auto. split; auto. split.
        + apply Forall_forall. intros g Hg'. rewrite Forall_forall in Hg. destruct (Hg _ Hg'). split; auto. split; auto.
          apply pairs_ok_in. intros x Hx. rewrite pairs_ok_in in Hpl'. apply Hpl'.
          assert (Hxl : In x (live l)) by (rewrite <- Hcat; apply in_concat; exists (fst g); split; auto; apply in_map; auto).
          apply live_in in Hxl. tauto.
        + intros x Hx. rewrite Hcat, live_in, Hin. tauto.
      - exists [], []. split; auto. split; auto. split; [constructor|]. intros x Hx. cbn. split; [tauto|apply Hsbin]. }
    destruct Hsbt as (sbtext & gs & -> & Est & Hgs & Hsin). cbn [obind].
    set (u := mmtext m1 ++ sbtext ++ pathbytes (Path m1)).
    assert (Eb : msgheader m1 ++ lit "AREA:" ++ Area m1 ++ [13] ++ mmtext m1 ++ sbtext ++ pathbytes (Path m1) ++ [0] =
      msgheader m1 ++ (lit "AREA:" ++ Area m1 ++ [13] ++ u ++ [0])).
    { unfold u. rewrite <- !app_assoc. reflexivity. }
    rewrite Eb. clear Eb.
    set (paths := filter (fun l => negb (streq l [])) (Path mm)).
    assert (Hpaths : Forall pathline_ok paths).
    { apply Forall_forall. intros l Hl. apply filter_In in Hl as [Hl1 Hl2]. rewrite Forall_forall in Hpa.
      destruct (Hpa _ Hl1) as [->|]; [discriminate|auto]. }
    assert (Ep : pathbytes (Path m1) = concat (map (fun l => l ++ [13]) (map (fun l => 1 :: lit "PATH: " ++ l) paths))).
    { rewrite map_map. apply pathbytes_eq. }
    assert (Es : sbtext = concat (map (fun l => l ++ [13]) (map snd gs))) by (rewrite map_map; auto).
    assert (Hu : pieces u = pieces (mmtext mm) ++ map (fun g => snd g ++ [13]) gs ++ map (fun l => (1 :: lit "PATH: " ++ l) ++ [13]) paths).
    { unfold u. change (mmtext m1) with (mmtext mm). rewrite pieces_app by auto. f_equal. rewrite Ep, Es.
      rewrite pieces_app by apply eol_lines. rewrite !pieces_lines.
      - rewrite !map_map. reflexivity.
      - apply Forall_forall. intros l Hl. apply in_map_iff in Hl as (p & <- & Hp). rewrite Forall_forall in Hpaths.
        destruct (Hpaths _ Hp) as (_ & _ & H13 & H10 & Hlen & _). split; [discriminate|]. split.
        + apply (proj2 (Forall_app _ [1] _)). split; [repeat constructor; lia|]. apply Forall_app; split; [litc; repeat constructor; lia|].
          apply Forall_forall. intros c Hcc; split; intros ->; auto.
        + cbn [length]. rewrite app_length. change (length (lit "PATH: ")) with 6%nat. lia.
      - apply Forall_forall. intros l Hl. apply in_map_iff in Hl as (g & <- & Hg). rewrite Forall_forall in Hgs.
        destruct (Hgs _ Hg) as (H1 & H2 & H3). destruct (sbline_line _ _ H1 H3). split; [auto|]. split; [auto|lia]. }
    assert (Hcu : cstring u).
    { unfold u. apply cstring_app; split; [exact Hc|]. apply cstring_app; split.
      - rewrite Est. apply cstring_concat. apply Forall_forall. intros l Hl. apply in_map_iff in Hl as (g & <- & Hg).
        rewrite Forall_forall in Hgs. destruct (Hgs _ Hg) as (H1 & _ & H3). apply (sbline_crline _ _ H1 H3).
      - rewrite Ep, map_map. apply cstring_concat. apply Forall_forall. intros l Hl. apply in_map_iff in Hl as (p & <- & Hp).
        rewrite Forall_forall in Hpaths. destruct (Hpaths _ Hp) as (_ & Hpc & _). change (cstring (([1] ++ lit "PATH: " ++ p) ++ [13])).
        repeat (apply cstring_app; split); auto; litc; repeat constructor; lia. }
    set (m3 := set_Subject (set_From (set_To (set_DateTime (msg_init cfg po pd (head14 m1)) (DateTime m1)) (To m1)) (From m1)) (Subject m1)).
    assert (Hh1 : hdr_ok m1).
    { destruct Hh as (? & ? & ? & ? & ? & ? & ? & ?). unfold m1, hdr_ok; cbn. repeat (split; [assumption|]). split; [apply echo_from_valid; auto|auto]. }
    set (m4 := set_Area m3 (Area mm)).
    assert (He4 : is_echo m4) by (unfold is_echo; cbn; apply Ha).
    destruct (addlines_spec (pieces (mmtext mm)) m4 He4) as (m5 & E5 & H51 & H52 & H53 & H54 & _).
    { constructor. } { apply pieces_crline; auto. } { eapply Forall_impl; [|exact Hpl]. cbn. tauto. }
    assert (Epl : plain_lines (pieces (mmtext mm)) = pieces (mmtext mm)).
    { apply filter_all. eapply Forall_impl; [|exact Hpl]. cbv beta. intros l (Hl1 & Hl2 & _).
      unfold seenbyb, pathb. apply prefixb_false in Hl1, Hl2. rewrite Hl1, Hl2. reflexivity. }
    assert (Epa : path_lines (pieces (mmtext mm)) = []).
    { apply filter_none. eapply Forall_impl; [|exact Hpl]. cbv beta. intros l (Hl1 & Hl2 & _). unfold pathb. apply prefixb_false in Hl2. rewrite Hl2. reflexivity. }
    assert (Efs : filter seenbyb (pieces (mmtext mm)) = []).
    { apply filter_none. eapply Forall_impl; [|exact Hpl]. cbv beta. intros l (Hl1 & Hl2 & _). unfold seenbyb. apply prefixb_false in Hl1. exact Hl1. }
    rewrite Epl, pieces_concat in H51. rewrite Epa in H52. rewrite Efs in H53. cbn in H51, H52, H53. injection H53 as E53.
    assert (He5 : is_echo m5) by (unfold is_echo; rewrite H54; exact He4).
    set (m6 := set_SeenBy m5 (addall (concat (map fst gs)) (SeenBy m5))).
    set (m7 := set_Path m6 (Path m6 ++ paths)).
    assert (E7 : addlines m4 (pieces u) = Some m7).
    { rewrite Hu, addlines_app, E5. cbn [obind]. rewrite addlines_app, addlines_seenby; auto.
      2,3: eapply Forall_impl; [|exact Hgs]; cbn; tauto.
      cbn [obind]. apply addlines_path; auto. }
    destruct (addlines_frame _ _ _ E5) as [Hf5 Hn5]. destruct (Hn5 He4) as [Hn1 Hn2].
    unfold frame in Hf5. subst m4 m3. rewrite (head14_fields cfg po pd m1 Hh1) in *. cbn in Hf5, Hn1, Hn2.
    injection Hf5 as G1 G2 G3 G4 G5 G6 G7 G8 G9.
    eexists _, m2, (tossed m7). split; [reflexivity|]. split; [|split; [|split; [|split]]].
    - apply reads_msg; auto. intros st rest. rewrite (head14_fields cfg po pd m1 Hh1).
      replace ((lit "AREA:" ++ Area m1 ++ [13] ++ u ++ [0]) ++ rest) with (lit "AREA:" ++ Area m1 ++ [13] ++ u ++ 0 :: rest).
      2:{ rewrite <- !app_assoc. reflexivity. }
      rewrite readbody_echo by auto. change (Area m1) with (Area mm). rewrite E7. reflexivity.
    - unfold echo_same. split; [repeat split; cbn; auto|]. cbn [tossed set_Flags m7 m6 set_Path set_SeenBy Area DestNode OrigNode SeenBy Path].
      split; [auto|]. split; [exact H51|]. rewrite Hn1, Hn2. cbn. split; [auto|]. split; [auto|]. split; [auto|]. split; [auto|].
      split; [|rewrite H52; reflexivity].
      intros x Hx. rewrite addall_in, <- E53. rewrite <- (Hsin x Hx). cbn. tauto.
    - exact G7.
    - exact G8.
    - cbn. rewrite <- Z.lor_assoc, Z.lor_diag. reflexivity.
  Qed.

  Lemma item_reads i : item_ok i -> exists b mm', item_bytes i = Some b /\ reads cfg handle cn h po pd b mm' /\ item_same i mm' /\
    PktOrig mm' = po /\ PktDest mm' = pd /\ Flags mm' = Z.lor (Flags mm') MMFLAG_TOSSED.
  Proof.
    destruct i as [mm c ak|mm]; cbn.
    - intros (H1 & H2 & H3 & H4). destruct (echo_reads mm c ak H1 H2 H3 H4) as (b & m2 & mm' & E & H). exists b, mm'. rewrite E. auto.
    - intros H. destruct (net_reads mm H) as (mm' & H'). exists (netbytes mm), mm'. auto.
  Qed.
End Items.

(** ** Whatever is accepted is well formed *)
Lemma ReadCR_inv n s l e r : ReadCR n s = (l, e, r) -> ~ In 0 l /\
  match e with CrNul => s = l ++ 0 :: r | CrEof => s = l /\ r = [] | _ => s = l ++ r end /\
  (n <> O -> e = CrLine \/ e = CrFull -> l <> []).
Proof.
  revert s l e r; induction n as [|n IH]; intros s l e r; cbn [ReadCR]; intros H.
  - inversion H; subst. repeat split; auto; congruence.
  - destruct s as [|c s]; [inversion H; subst; repeat split; auto; intros _ [?|?]; discriminate|].
    destruct (Z.eqb_spec c 0) as [->|Hc]; [inversion H; subst; repeat split; auto; intros _ [?|?]; discriminate|].
    destruct ((c =? 10) || (c =? 13)).
    + inversion H; subst. split; [intros [Hx|[]]; auto|]. split; [reflexivity|discriminate].
    + destruct (ReadCR n s) as [[l' e'] r'] eqn:E. inversion H; subst.
      destruct (IH _ _ _ _ E) as (H1 & H2 & _). split; [intros [Hx|Hx]; auto|]. split; [|discriminate].
      destruct e; cbn [app]; try (rewrite H2; reflexivity). destruct H2 as [-> ->]. auto.
Qed.

Lemma readtext_inv fuel mm s : (length s < fuel)%nat ->
  match readtext fuel mm s with
  | TxOk mm' r => exists t, s = t ++ 0 :: r /\ ~ In 0 t /\ frame mm' = frame mm
  | TxEof => True
  | TxUB => exists m l, infix l s /\ mmAddLine m l = None
  | TxFuel => False
  end.
Proof.
  revert mm s; induction fuel as [|fuel IH]; intros mm s Hf; [lia|]. cbn [readtext].
  destruct (ReadCR CRBUF s) as [[l e] r] eqn:E. destruct (ReadCR_inv _ _ _ _ _ E) as (H0 & H1 & H2).
  specialize (H2 ltac:(discriminate)).
  assert (Hl : (match l with [] => Some mm | _ => mmAddLine mm l end = None -> infix l s -> exists m l, infix l s /\ mmAddLine m l = None)).
  { destruct l; [discriminate|]. intros Hx Hi. eauto. }
  assert (Hfr : forall mm', match l with [] => Some mm | _ => mmAddLine mm l end = Some mm' -> frame mm' = frame mm).
  { destruct l; intros mm' Hx; [inversion Hx; auto|]. eapply mmAddLine_frame; eauto. }
  destruct e.
  - destruct (match l with [] => Some mm | _ => mmAddLine mm l end) as [mm'|]; [|apply Hl; auto; exists [], r; auto].
    specialize (IH mm' r). rewrite H1, app_length in Hf. assert (l <> []) by auto. destruct l as [|c l]; [contradiction|]. simpl in Hf.
    specialize (IH ltac:(lia)). destruct (readtext fuel mm' r) as [m'' r'| | |]; auto.
    + destruct IH as (t & -> & Ht & Hfr'). exists ((c :: l) ++ t). split; [rewrite H1, <- app_assoc; reflexivity|].
      split; [rewrite in_app_iff; tauto|]. rewrite Hfr'. auto.
    + destruct IH as (m & l' & (a & b & ->) & Hn). exists m, l'. split; auto. exists ((c :: l) ++ a), b. rewrite H1, <- app_assoc. reflexivity.
  - destruct (match l with [] => Some mm | _ => mmAddLine mm l end) as [mm'|]; [|apply Hl; auto; exists [], (0 :: r); auto].
    exists l. auto.
  - auto.
  - destruct (match l with [] => Some mm | _ => mmAddLine mm l end) as [mm'|]; [|apply Hl; auto; exists [], r; auto].
    specialize (IH mm' r). rewrite H1, app_length in Hf. assert (l <> []) by auto. destruct l as [|c l]; [contradiction|]. simpl in Hf.
    specialize (IH ltac:(lia)). destruct (readtext fuel mm' r) as [m'' r'| | |]; auto.
    + destruct IH as (t & -> & Ht & Hfr'). exists ((c :: l) ++ t). split; [rewrite H1, <- app_assoc; reflexivity|].
      split; [rewrite in_app_iff; tauto|]. rewrite Hfr'. auto.
    + destruct IH as (m & l' & (a & b & ->) & Hn). exists m, l'. split; auto. exists ((c :: l) ++ a), b. rewrite H1, <- app_assoc. reflexivity.
Qed.

Lemma infix_app_r l a b : infix l b -> infix l (a ++ b).
Proof. intros (x & y & ->). exists (a ++ x), y. rewrite <- app_assoc. reflexivity. Qed.
Lemma infix_cons_r l c b : infix l b -> infix l (c :: b).
Proof. apply (infix_app_r l [c]). Qed.

Definition frame1 (m : memmsg) := (To m, From m, Subject m, DateTime m, Attr m, Cost m).
Section Inv.
  Context {S : Type} (cfg : pktcfg) (handle : S -> memmsg -> S * bool) (ctrlc : nat -> bool) (cn : option cnode) (h : list Z) (po pd : node4d).

  Lemma readbody_inv mm s st :
    match readbody cfg handle cn h mm s st with
    | MrNext st' r => exists t m, s = t ++ 0 :: r /\ ~ In 0 t /\ handle st m = (st', true) /\ frame1 m = frame1 mm
    | MrStop (PkDone _) | MrStop PkFuel => False
    | MrStop PkUB => exists m l, infix l s /\ mmAddLine m l = None
    | MrStop _ => True
    end.
  Proof.
    unfold readbody. destruct (ReadCR CRBUF s) as [[l e] r] eqn:E. destruct (ReadCR_inv _ _ _ _ _ E) as (H0 & H1 & H2).
    assert (Hi : infix l s) by (destruct e; try (exists [], (0 :: r); exact H1); try (exists [], r; exact H1); destruct H1 as [-> ->]; exists [], []; rewrite app_nil_r; reflexivity).
    assert (Hfr : forall mm', (if prefixb (lit "AREA:") l then Some (set_Area mm (stripleadtrail (firstn 79 (skipn 5 l)))) else mmAddLine mm l) = Some mm' -> frame1 mm' = frame1 mm).
    { intros mm'. destruct (prefixb _ l); intros Hx; [inversion Hx; reflexivity|]. apply mmAddLine_frame in Hx as [Hx _].
      unfold frame, frame1 in *. congruence. }
    destruct (if prefixb (lit "AREA:") l then Some (set_Area mm (stripleadtrail (firstn 79 (skipn 5 l)))) else mmAddLine mm l) as [mm1|] eqn:El.
    2:{ destruct (prefixb _ l); [discriminate|]. eauto. }
    specialize (Hfr mm1 eq_refl). destruct (wrongpw cfg cn h mm1); [exact I|].
    assert (Hgive : forall t m rr, s = t ++ 0 :: rr -> ~ In 0 t -> frame m = frame mm1 ->
      match (let '(st', ok) := handle st (set_Flags m (Z.lor (Flags m) MMFLAG_TOSSED)) in if ok then MrNext st' rr else MrStop (PkFalse st')) with
      | MrNext st' r => exists t m, s = t ++ 0 :: r /\ ~ In 0 t /\ handle st m = (st', true) /\ frame1 m = frame1 mm
      | MrStop (PkDone _) | MrStop PkFuel => False
      | MrStop PkUB => exists m l, infix l s /\ mmAddLine m l = None
      | MrStop _ => True
      end).
    { intros t m rr Hs Ht Hm. destruct (handle st _) as [st' ok] eqn:Eh. destruct ok; [|exact I].
      exists t, (set_Flags m (Z.lor (Flags m) MMFLAG_TOSSED)). split; auto. split; auto. split; auto.
      rewrite <- Hfr. unfold frame, frame1 in *. cbn. congruence. }
    assert (Hrd : e <> CrNul -> s = l ++ r ->
      match match readtext (Datatypes.S (length r)) mm1 r with
      | TxUB => MrStop PkUB
      | TxFuel => MrStop PkFuel
      | TxEof => MrStop (PkBad BEof st)
      | TxOk mm r => let '(st', ok) := handle st (set_Flags mm (Z.lor (Flags mm) MMFLAG_TOSSED)) in if ok then MrNext st' r else MrStop (PkFalse st')
      end with
      | MrNext st' r => exists t m, s = t ++ 0 :: r /\ ~ In 0 t /\ handle st m = (st', true) /\ frame1 m = frame1 mm
      | MrStop (PkDone _) | MrStop PkFuel => False
      | MrStop PkUB => exists m l, infix l s /\ mmAddLine m l = None
      | MrStop _ => True
      end).
    { intros _ Hs. pose proof (readtext_inv (Datatypes.S (length r)) mm1 r ltac:(lia)) as Hx.
      destruct (readtext (Datatypes.S (length r)) mm1 r) as [m rr| | |].
      - destruct Hx as (t & -> & Ht & Hm). apply (Hgive (l ++ t)); auto; [rewrite Hs, <- app_assoc; reflexivity|rewrite in_app_iff; tauto].
      - exact I.
      - destruct Hx as (m & l' & Hi' & Hn). exists m, l'. split; auto. rewrite Hs. apply infix_app_r; auto.
      - auto. }
    destruct e.
    - apply Hrd; [discriminate|auto].
    - apply (Hgive l mm1); auto.
    - apply Hrd; [discriminate|]. destruct H1 as [-> ->]. rewrite app_nil_r. reflexivity.
    - apply Hrd; [discriminate|auto].
  Qed.

  Lemma ReadNull_infix n s l e r : ReadNull n s = (l, e, r) -> exists a, s = a ++ r.
  Proof.
    revert s l e r; induction n as [|n IH]; intros [|c s] l e r; cbn [ReadNull]; intros H; try (inversion H; exists []; reflexivity).
    - destruct (c =? 0); inversion H; exists [c]; reflexivity.
    - destruct (c =? 0); [inversion H; exists [c]; reflexivity|].
      destruct (ReadNull n s) as [[l' e'] r'] eqn:E. inversion H; subst. destruct (IH _ _ _ _ E) as (a & ->). exists (c :: a). reflexivity.
  Qed.
  Lemma readmsg_inv ph s st :
    match readmsg cfg handle cn h po pd ph s st with
    | MrNext st' r => exists dt to fr su text m, s = dt ++ 0 :: to ++ 0 :: fr ++ 0 :: su ++ 0 :: text ++ 0 :: r /\
        field 19 dt /\ field 35 to /\ field 35 fr /\ field 71 su /\ ~ In 0 text /\ handle st m = (st', true) /\
        frame1 m = (to, fr, su, dt, get16 ph 10, get16 ph 12)
    | MrStop (PkDone _) | MrStop PkFuel => False
    | MrStop PkUB => exists m l, infix l s /\ mmAddLine m l = None
    | MrStop _ => True
    end.
  Proof.
    unfold readmsg. destruct (ReadNull 19 s) as [[dt e1] s1] eqn:E1.
    destruct (match e1 with RnShort => ([], RnShort, s1) | _ => ReadNull 35 s1 end) as [[to e2] s2] eqn:E2.
    destruct (match e2 with RnShort => ([], RnShort, s2) | _ => ReadNull 35 s2 end) as [[fr e3] s3] eqn:E3.
    destruct (match e3 with RnShort => ([], RnShort, s3) | _ => ReadNull 71 s3 end) as [[su e4] s4] eqn:E4.
    destruct e4; [|exact I|].
    2:{ destruct e1, e2, e3; exact I. }
    destruct e1; try (destruct e2, e3; exact I). destruct e2; try (destruct e3; exact I). destruct e3; try exact I.
    apply ReadNull_inv in E1 as [-> F1], E2 as [-> F2], E3 as [-> F3], E4 as [-> F4].
    pose proof (readbody_inv (set_Subject (set_From (set_To (set_DateTime (msg_init cfg po pd ph) dt) to) fr) su) s4 st) as H.
    destruct (readbody cfg handle cn h _ s4 st) as [st' r|[ | | | | ]]; auto.
    - destruct H as (t & m & -> & Ht & Hh & Hfr). exists dt, to, fr, su, t, m. repeat (split; auto).
    - destruct H as (m & l & Hi & Hn). exists m, l. split; auto.
      repeat (apply infix_app_r; apply infix_cons_r). exact Hi.
  Qed.

  Lemma readmsgs_inv fuel : forall i ph0 s0 st, (length s0 < fuel)%nat -> length ph0 = 14%nat -> bytes s0 -> (2 <= length s0)%nat ->
    match readmsgs cfg handle ctrlc fuel cn h po pd i (overlay ph0 (firstn 14 s0)) (skipn 14 s0) st with
    | PkDone st' => exists msgs ms tl, s0 = concat msgs ++ tl /\ Forall2 msg_of msgs ms /\ deliver handle st ms = PkDone st' /\
        ((exists rest, tl = 0 :: 0 :: rest) \/ (tl = [0] /\ msgs <> []))
    | PkFuel => False
    | PkUB => exists m l, infix l s0 /\ mmAddLine m l = None
    | _ => True
    end.
  Proof.
    induction fuel as [|fuel IH]; intros i ph0 s0 st Hf Hph Hb H2; [lia|]. cbn [readmsgs].
    assert (Hty : get16 (overlay ph0 (firstn 14 s0)) 0 = get16 s0 0).
    { unfold overlay, get16. destruct s0 as [|a [|b s0]]; simpl in H2; try lia. reflexivity. }
    rewrite Hty.
    assert (Hb2 : exists a b r, s0 = a :: b :: r /\ is_u8 a /\ is_u8 b).
    { destruct s0 as [|a [|b r]]; simpl in H2; try lia. inversion Hb as [|? ? Ha Hb']; subst. inversion Hb'; subst. eauto 10. }
    destruct (Z.eqb_spec (get16 s0 0) 2) as [E2|E2]; cbn [andb].
    2:{ destruct (Z.eqb_spec (get16 s0 0) 0) as [E0|E0]; cbn [negb]; [|exact I].
        exists [], [], s0. split; [reflexivity|]. split; [constructor|]. split; [reflexivity|]. left.
        destruct Hb2 as (a & b & r & -> & Ha & Hb2). unfold get16 in E0. cbn in E0. unfold is_u8 in *.
        assert (a = 0 /\ b = 0) by lia. destruct H as [-> ->]. eauto. }
    destruct (negb (ctrlc i)). 2:{ rewrite E2. exact I. }
    pose proof (readmsg_inv (overlay ph0 (firstn 14 s0)) (skipn 14 s0) st) as Hm.
    destruct (readmsg cfg handle cn h po pd (overlay ph0 (firstn 14 s0)) (skipn 14 s0) st) as [st' r|[ | | | | ]]; auto; try contradiction.
    2:{ destruct Hm as (m & l & Hi & Hn). exists m, l. split; auto. rewrite <- (firstn_skipn 14 s0). apply infix_app_r; auto. }
    destruct Hm as (dt & to & fr & su & text & m & Es & F1 & F2 & F3 & F4 & F5 & Hh & Hfr).
    assert (H14 : (14 < length s0)%nat).
    { apply (f_equal (@length Z)) in Es. rewrite skipn_length, app_length in Es. cbn [length] in Es. lia. }
    rewrite overlay14 in Hfr by (auto; lia). rewrite (overlay14 ph0 s0) by (auto; lia). clear Hty.
    set (hh := firstn 12 (skipn 2 s0)).
    assert (Es0 : s0 = pktmsg hh dt to fr su text ++ r).
    { unfold pktmsg. destruct Hb2 as (a & b & q & -> & Ha & Hb2). unfold get16 in E2. cbn in E2. unfold is_u8 in *.
      assert (a = 2 /\ b = 0) by lia. destruct H as [-> ->]. change hh with (firstn 12 q). change (skipn 14 (2 :: 0 :: q)) with (skipn 12 q) in Es. cbn [app]. f_equal. f_equal.
      rewrite <- (firstn_skipn 12 q) at 1. rewrite <- app_assoc. f_equal. rewrite Es. repeat (rewrite <- app_assoc; cbn [app]). reflexivity. }
    assert (Hmo : msg_of (pktmsg hh dt to fr su text) m).
    { exists hh, dt, to, fr, su, text. split; [reflexivity|]. split; [subst hh; rewrite firstn_length, skipn_length; lia|].
      rewrite !get16_firstn in Hfr by lia. unfold frame1 in Hfr. injection Hfr as G1 G2 G3 G4 G5 G6.
      split; [exact F1|]. split; [exact F2|]. split; [exact F3|]. split; [exact F4|]. split; [exact F5|].
      split; [exact G4|]. split; [exact G1|]. split; [exact G2|]. split; [exact G3|]. subst hh. rewrite !get16_firstn by lia.
      destruct Hb2 as (a & b & q & -> & _). split; [exact G5|exact G6]. }
    assert (Hr : (length r < length (skipn 14 s0))%nat).
    { rewrite Es. rewrite !app_length. cbn [length]. rewrite !app_length. cbn [length]. rewrite !app_length. cbn [length]. rewrite !app_length. cbn [length]. rewrite !app_length. cbn [length]. lia. }
    rewrite skipn_length in Hr.
    assert (Hbr : bytes r).
    { unfold bytes in *. rewrite Es0 in Hb. apply Forall_app in Hb. tauto. }
    destruct (Nat.ltb_spec (length (firstn 14 r)) 2) as [Hl|Hl].
    - rewrite firstn_length in Hl. destruct r as [|c [|d r]]; [| |simpl in Hl; lia].
      + change (overlay (firstn 14 s0) (firstn 14 [])) with (firstn 14 s0).
        assert (E : nth 0 (firstn 14 s0) 0 = 2).
        { destruct Hb2 as (a & b & q & -> & Ha & Hb2). change (a = 2). unfold get16 in E2; cbn in E2. unfold is_u8 in *. lia. }
        rewrite E. cbn. exact I.
      + cbn [firstn]. unfold overlay. cbn [length app nth]. destruct (Z.eqb_spec c 0) as [->|Hc]; cbn [negb]; [|exact I].
        exists [pktmsg hh dt to fr su text], [m], [0]. split; [rewrite Es0; cbn [concat]; rewrite app_nil_r; reflexivity|].
        split; [repeat constructor; auto|]. split; [cbn; rewrite Hh; reflexivity|]. right. split; [auto|discriminate].
    - rewrite firstn_length in Hl.
      specialize (IH (Datatypes.S i) (firstn 14 s0) r st').
      destruct (readmsgs cfg handle ctrlc fuel cn h po pd (Datatypes.S i) (overlay (firstn 14 s0) (firstn 14 r)) (skipn 14 r) st') as [st2| | | | ].
      + destruct IH as (msgs & ms & tl & -> & Hm2 & Hd & Htl); auto; [lia|rewrite firstn_length; lia|lia|].
        exists (pktmsg hh dt to fr su text :: msgs), (m :: ms), tl. split; [rewrite Es0; cbn [concat]; rewrite app_assoc; reflexivity|].
        split; [constructor; auto|]. split; [cbn; rewrite Hh; exact Hd|]. destruct Htl as [Htl|[Htl _]]; [auto|right; split; [auto|discriminate]].
      + exact I.
      + exact I.
      + destruct IH as (m' & l & Hi & Hn); auto; [lia|rewrite firstn_length; lia|lia|]. exists m', l. split; auto. rewrite Es0. apply infix_app_r; auto.
      + apply IH; auto; [lia|rewrite firstn_length; lia|lia].
  Qed.
End Inv.

(** ** Messages are not prefixes of each other *)
Lemma cut0 a b x y : ~ In 0 a -> ~ In 0 b -> a ++ 0 :: x = b ++ 0 :: y -> a = b /\ x = y.
Proof.
  revert b; induction a as [|c a IH]; intros [|d b] Ha Hb E; cbn [app] in E; inversion E; subst; auto.
  - exfalso. apply Hb. left; auto.
  - exfalso. apply Ha. left; auto.
  - destruct (IH b) as [-> ->]; auto; intros Hx; [apply Ha|apply Hb]; right; auto.
Qed.
Lemma pktmsg_assoc h dt to fr su text r : pktmsg h dt to fr su text ++ r =
  [2; 0] ++ h ++ dt ++ 0 :: to ++ 0 :: fr ++ 0 :: su ++ 0 :: text ++ 0 :: r.
Proof. unfold pktmsg. repeat (rewrite <- app_assoc; cbn [app]). reflexivity. Qed.
Lemma app_eq_len {A} (a b x y : list A) : length a = length b -> a ++ x = b ++ y -> a = b /\ x = y.
Proof.
  revert b; induction a as [|c a IH]; intros [|d b] Hl E; simpl in *; try lia; auto. inversion E; subst.
  destruct (IH b) as [-> ->]; auto.
Qed.
Lemma pktmsg_prefix a b x y : is_pktmsg a -> is_pktmsg b -> a ++ x = b ++ y -> a = b /\ x = y.
Proof.
  intros (h & dt & to & fr & su & text & -> & Hh & [D _] & [T _] & [F _] & [U _] & X)
         (h' & dt' & to' & fr' & su' & text' & -> & Hh' & [D' _] & [T' _] & [F' _] & [U' _] & X') E.
  rewrite !pktmsg_assoc in E. cbn [app] in E. injection E as E. apply app_eq_len in E as [-> E]; [|congruence].
  apply cut0 in E as [-> E]; auto. apply cut0 in E as [-> E]; auto. apply cut0 in E as [-> E]; auto.
  apply cut0 in E as [-> E]; auto. apply cut0 in E as [-> E]; auto.
Qed.
Lemma is_pktmsg_2 b : is_pktmsg b -> exists r, b = 2 :: r.
Proof. intros (h & dt & to & fr & su & text & -> & _). eexists; reflexivity. Qed.

Lemma truncated_tail msgs : Forall is_pktmsg msgs -> forall msgs' tl t, Forall is_pktmsg msgs' ->
  ((exists rest, tl = 0 :: 0 :: rest) \/ tl = [0]) ->
  (concat msgs' ++ tl) ++ t = concat msgs ++ [0; 0] -> t <> [] -> msgs' = msgs /\ tl = [0] /\ t = [0].
Proof.
  intros H msgs' tl t H'. revert msgs H. induction H' as [|m' msgs' Hm' H' IH]; intros msgs H Htl E Ht; cbn [concat] in E.
  - destruct H as [|m msgs Hm H]; cbn [concat] in E.
    + cbn [app] in E. destruct Htl as [(rest & ->)| ->]; cbn [app] in E.
      * inversion E as [E']. apply app_eq_nil in E' as [_ E']. contradiction.
      * inversion E. auto.
    + exfalso. destruct (is_pktmsg_2 m Hm) as (r & ->). destruct Htl as [(rest & ->)| ->]; discriminate.
  - destruct H as [|m msgs Hm H]; cbn [concat] in E.
    + exfalso. destruct (is_pktmsg_2 m' Hm') as (r & ->). discriminate.
    + rewrite <- !app_assoc in E. apply pktmsg_prefix in E as [-> E]; auto.
      destruct (IH msgs H Htl) as (-> & -> & ->); auto. rewrite <- app_assoc. exact E.
Qed.

Lemma msg_of_is b mm : msg_of b mm -> is_pktmsg b.
Proof. intros (h & dt & to & fr & su & text & -> & H1 & H2 & H3 & H4 & H5 & H6 & _). exists h, dt, to, fr, su, text. auto 10. Qed.

(** ** Passwords *)
Section Handlers.
  Context {S : Type} (cfg : pktcfg) (h1 h2 : S -> memmsg -> S * bool) (ctrlc : nat -> bool) (cn : option cnode) (h : list Z) (po pd : node4d).
  Hypothesis Heq : forall st m, wrongpw cfg cn h m = false -> PktOrig m = po -> PktDest m = pd -> h1 st m = h2 st m.
  Lemma wrongpw_area m m' : Area m = Area m' -> wrongpw cfg cn h m = wrongpw cfg cn h m'.
  Proof. unfold wrongpw. intros ->. reflexivity. Qed.
  Lemma readtext_area fuel mm s mm' r : readtext fuel mm s = TxOk mm' r -> Area mm' = Area mm /\ PktOrig mm' = PktOrig mm /\ PktDest mm' = PktDest mm.
  Proof.
    revert mm s; induction fuel as [|fuel IH]; intros mm s; cbn [readtext]; [discriminate|].
    destruct (ReadCR CRBUF s) as [[l e] r0]. destruct e; try discriminate;
    destruct (match l with [] => Some mm | _ => mmAddLine mm l end) as [m1|] eqn:E; try discriminate; intros H;
    assert (Ha : Area m1 = Area mm /\ PktOrig m1 = PktOrig mm /\ PktDest m1 = PktDest mm)
      by (destruct l; [inversion E; auto|]; apply mmAddLine_frame in E as [E _]; unfold frame in E; repeat split; congruence);
    destruct Ha as (Ha & Ha' & Ha'').
    - apply IH in H as (H1 & H2 & H3). repeat split; congruence.
    - inversion H; subst. auto.
    - apply IH in H as (H1 & H2 & H3). repeat split; congruence.
  Qed.
  Lemma readbody_handlers mm s st : PktOrig mm = po -> PktDest mm = pd -> readbody cfg h1 cn h mm s st = readbody cfg h2 cn h mm s st.
  Proof.
    intros Ho Hd. unfold readbody. destruct (ReadCR CRBUF s) as [[l e] r].
    destruct (if prefixb (lit "AREA:") l then _ else _) as [m1|] eqn:E1; [|reflexivity].
    assert (Hp : PktOrig m1 = po /\ PktDest m1 = pd).
    { destruct (prefixb (lit "AREA:") l).
      - assert (m1 = set_Area mm (stripleadtrail (firstn 79 (skipn 5 l)))) by congruence. subst m1. auto.
      - apply mmAddLine_frame in E1 as [E1 _]. unfold frame in E1. split; congruence. }
    destruct Hp as [Hp1 Hp2].
    destruct (wrongpw cfg cn h m1) eqn:E; [reflexivity|].
    assert (Hx : forall m, Area m = Area m1 /\ PktOrig m = PktOrig m1 /\ PktDest m = PktDest m1 ->
      h1 st (set_Flags m (Z.lor (Flags m) MMFLAG_TOSSED)) = h2 st (set_Flags m (Z.lor (Flags m) MMFLAG_TOSSED))).
    { intros m (Hm & Hm1 & Hm2). apply Heq; [rewrite <- E; apply wrongpw_area; exact Hm|cbn; congruence|cbn; congruence]. }
    destruct e; try (rewrite Hx by auto; reflexivity);
    destruct (readtext (Datatypes.S (length r)) m1 r) eqn:Er; try reflexivity; rewrite (Hx mm0) by (eapply readtext_area; eauto); reflexivity.
  Qed.
  Lemma readmsgs_handlers fuel : forall i ph s st,
    readmsgs cfg h1 ctrlc fuel cn h po pd i ph s st = readmsgs cfg h2 ctrlc fuel cn h po pd i ph s st.
  Proof.
    induction fuel as [|fuel IH]; intros i ph s st; cbn [readmsgs]; auto.
    destruct (_ && _); auto.
    assert (E : readmsg cfg h1 cn h po pd ph s st = readmsg cfg h2 cn h po pd ph s st).
    { unfold readmsg. destruct (ReadNull 19 s) as [[dt e1] s1].
      destruct (match e1 with RnShort => _ | _ => _ end) as [[to e2] s2].
      destruct (match e2 with RnShort => _ | _ => _ end) as [[fr e3] s3].
      destruct (match e3 with RnShort => _ | _ => _ end) as [[su e4] s4].
      destruct e4; auto; destruct e1, e2, e3; auto. apply readbody_handlers; reflexivity. }
    rewrite E. destruct (readmsg cfg h2 cn h po pd ph s st) as [st' r|]; auto. destruct (Nat.ltb _ _); auto.
  Qed.
End Handlers.

Lemma wrongpw_mk cfg c tm o d pw m : ~ In 0 pw -> (length pw <= 8)%nat ->
  wrongpw cfg (Some c) (mkheader tm o d pw) m = false -> may_pass cfg c pw m.
Proof.
  intros H0 Hl. unfold wrongpw, may_pass, pw_ok. rewrite mkheader_pw, cstr_pw by auto.
  destruct (Area m) as [|x y]; destruct (flag (cn_flags c) NODE_NONETMAILPASSWORD); cbn [orb negb]; auto;
  (destruct (cn_pw c) as [|a b]; [auto|]); destruct (pc_nosecurity cfg); auto; rewrite andb_true_r; cbn [andb];
  rewrite negb_false_iff; unfold streqi; rewrite streq_eq; auto.
Qed.
Lemma may_pass_pw cfg c tm o d pw m : ~ In 0 pw -> (length pw <= 8)%nat ->
  may_pass cfg c pw m -> wrongpw cfg (Some c) (mkheader tm o d pw) m = false.
Proof.
  intros H0 Hl [H|[H1 H2]].
  - apply wrongpw_accepted; auto.
  - unfold wrongpw. rewrite H1, H2. reflexivity.
Qed.

(** ** Packets written *)
Lemma n4eqb_eq a b : n4eqb a b = true <-> a = b.
Proof.
  unfold n4eqb. rewrite !andb_true_iff, !Z.eqb_eq. destruct a, b; cbn. split; [intros [[[-> ->] ->] ->]; auto|intros H; inversion H; auto].
Qed.
Lemma keyeqb_eq a b : keyeqb a b = true <-> a = b.
Proof.
  destruct a as [[d o] t], b as [[d' o'] t']. unfold keyeqb. rewrite !andb_true_iff, !n4eqb_eq, Z.eqb_eq.
  split; [intros [[-> ->] ->]; auto|intros H; inversion H; auto].
Qed.
Lemma keyeqb_refl a : keyeqb a a = true.
Proof. apply keyeqb_eq. auto. Qed.
Lemma keyeqb_neq a b : a <> b -> keyeqb a b = false.
Proof. intros H. destruct (keyeqb a b) eqn:E; auto. apply keyeqb_eq in E. contradiction. Qed.

Lemma Compare4D_nz a b : zone a <> 0 -> zone b <> 0 -> (Compare4D a b =? 0) = n4eqb a b.
Proof.
  intros Ha Hb. apply Bool.eq_true_iff_eq. rewrite n4eqb_eq, Z.eqb_eq. unfold Compare4D.
  destruct a as [az an ao ap], b as [bz bn bo bp]; cbn in *.
  destruct (Z.eqb_spec az 0); [contradiction|]. destruct (Z.eqb_spec bz 0); [contradiction|]. cbn [negb andb].
  rewrite !Z.gtb_ltb.
  destruct (Z.ltb_spec bz az), (Z.ltb_spec az bz), (Z.ltb_spec bn an), (Z.ltb_spec an bn), (Z.ltb_spec bo ao), (Z.ltb_spec ao bo),
    (Z.ltb_spec bp ap), (Z.ltb_spec ap bp); split; intros H'; try discriminate; try (injection H'; intros; subst; lia); try lia; f_equal; lia.
Qed.
Definition nzop (w : wop) : Prop := zone (w_dest w) <> 0 /\ zone (w_orig w) <> 0.
Definition nzpkt (p : opkt) : Prop := zone (op_dest p) <> 0 /\ zone (op_orig p) <> 0.
Lemma pktmatch_key d o t p : zone d <> 0 -> zone o <> 0 -> nzpkt p -> pktmatch d o t p = keyeqb (d, o, t) (okey p).
Proof. intros Hd Ho [H1 H2]. unfold pktmatch, okey, keyeqb. rewrite !Compare4D_nz by auto. reflexivity. Qed.

Lemma splitpkt_some d o t l a p b : splitpkt d o t l = Some (a, p, b) -> l = a ++ p :: b /\ pktmatch d o t p = true.
Proof.
  revert a p b; induction l as [|q l IH]; intros a p b; cbn [splitpkt]; [discriminate|].
  destruct (pktmatch d o t q) eqn:E; [intros H; inversion H; subst; auto|].
  destruct (splitpkt d o t l) as [[[a' q'] b']|]; [|discriminate]. intros H; inversion H; subst.
  destruct (IH _ _ _ eq_refl) as [-> ?]. auto.
Qed.
Lemma splitpkt_none d o t l : splitpkt d o t l = None -> Forall (fun p => pktmatch d o t p = false) l.
Proof.
  induction l as [|q l IH]; cbn [splitpkt]; [constructor|].
  destruct (pktmatch d o t q) eqn:E; [discriminate|].
  destruct (splitpkt d o t l) as [[[a' q'] b']|]; [discriminate|]. intros _. constructor; auto.
Qed.

Definition ginv (o : pktout) (ws : list wop) : Prop := exists go gd,
  map fst go = po_open o /\ map fst gd = po_done o /\ Forall (pholds []) go /\ Forall (pholds [0; 0]) gd /\
  Forall (fun g => nzpkt (fst g)) go /\ NoDup (map okey (po_open o)) /\
  forall k, concat (map snd (kfil k gd)) ++ concat (map snd (kfil k go)) = wfil k ws.

Lemma kfil_app k a b : kfil k (a ++ b) = kfil k a ++ kfil k b.
Proof. apply filter_app. Qed.
Lemma wfil_app k a b : wfil k (a ++ b) = wfil k a ++ wfil k b.
Proof. apply filter_app. Qed.
Lemma kfil_none k l : ~ In k (map okey (map fst l)) -> kfil k l = [].
Proof.
  intros H. unfold kfil. apply filter_none. apply Forall_forall. intros g Hg. apply keyeqb_neq. intros E. apply H.
  rewrite map_map. apply in_map_iff. eauto.
Qed.
Lemma csnd_app k a b : concat (map snd (kfil k (a ++ b))) = concat (map snd (kfil k a)) ++ concat (map snd (kfil k b)).
Proof. rewrite kfil_app, map_app, concat_app. reflexivity. Qed.
Lemma wfil_one k w : wfil k [w] = if keyeqb k (wkey w) then [w] else [].
Proof. reflexivity. Qed.
Lemma csnd_one k (g : gpkt) : concat (map snd (kfil k [g])) = if keyeqb k (okey (fst g)) then snd g else [].
Proof. unfold kfil. cbn [filter]. destruct (keyeqb k (okey (fst g))); cbn; rewrite ?app_nil_r; reflexivity. Qed.

Lemma ginv_step o ws w : nzop w -> ginv o ws -> ginv (wstep o w) (ws ++ [w]).
Proof.
  intros [Hd Ho] (go & gd & Eo & Ed & Ho1 & Hd1 & Hnz & Hnd & Hk). unfold wstep, addpkt.
  set (fresh := OP (w_hex w) (w_type w) (w_dest w) (w_orig w) (mkheader (w_tm w) (w_orig w) (w_dest w) (w_pw w) ++ w_data w)).
  assert (Hf : pholds [] (fresh, [w])).
  { split; [discriminate|]. split; [repeat constructor|]. exists (w_tm w), (w_pw w). split; [exists w; cbn; auto|].
    cbn. rewrite !app_nil_r. reflexivity. }
  assert (Hnf : nzpkt fresh) by (split; auto).
  destruct (splitpkt (w_dest w) (w_orig w) (w_type w) (po_open o)) as [[[a p] b]|] eqn:E.
  - apply splitpkt_some in E as [El Em]. rewrite El in Eo.
    apply map_eq_app in Eo as (ga & gpb & -> & Ea & Epb). apply map_eq_cons in Epb as (g & gb & -> & Ep & Eb).
    apply Forall_app in Ho1 as [Hga Hgb]. inversion Hgb as [|? ? Hg Hgb']; subst. clear Hgb.
    apply Forall_app in Hnz as [Hna Hnb]. inversion Hnb as [|? ? Hng Hnb']; subst. clear Hnb.
    rewrite pktmatch_key in Em by auto. apply keyeqb_eq in Em. change (w_dest w, w_orig w, w_type w) with (wkey w) in Em.
    rewrite El, map_app in Hnd. cbn [map] in Hnd. pose proof (NoDup_remove_2 _ _ _ Hnd) as Hni.
    pose proof (NoDup_remove_1 _ _ _ Hnd) as Hnd'.
    assert (Hna' : kfil (wkey w) ga = []) by (apply kfil_none; rewrite Em; intros Hx; apply Hni, in_or_app; auto).
    assert (Hnb2 : kfil (wkey w) gb = []) by (apply kfil_none; rewrite Em; intros Hx; apply Hni, in_or_app; auto).
    destruct (negb (w_max w =? 0) && _).
    + exists (ga ++ gb ++ [(fresh, [w])]), (gd ++ [(finish1 (fst g), snd g)]). cbn [po_open po_done].
      split; [rewrite !map_app; reflexivity|]. split; [rewrite map_app, Ed; reflexivity|].
      split; [apply Forall_app; split; auto; apply Forall_app; auto|].
      split. { apply Forall_app; split; auto. constructor; auto. destruct Hg as (G1 & G2 & tm & pw & G3 & G4).
        split; auto. split; auto. exists tm, pw. split; auto. cbn [finish1 fst snd op_data op_orig op_dest].
        rewrite G4, app_nil_r, <- !app_assoc. reflexivity. }
      split; [apply Forall_app; split; auto; apply Forall_app; auto|].
      split. { rewrite !map_app, app_assoc, <- map_app. cbn [map]. change (okey fresh) with (wkey w). rewrite Em.
        apply NoDup_rev in Hnd'. rewrite map_app. rewrite <- (rev_involutive ((map okey (map fst ga) ++ map okey (map fst gb)) ++ [okey (fst g)])).
        apply NoDup_rev. rewrite rev_app_distr. cbn [rev app]. constructor; [rewrite <- in_rev; auto|auto]. }
      intros k. specialize (Hk k). rewrite wfil_app, wfil_one, !csnd_app, !csnd_one, <- Hk. cbn [fst snd].
      change (okey fresh) with (wkey w). change (okey (finish1 (fst g))) with (okey (fst g)).
      change (g :: gb) with ([g] ++ gb). rewrite !csnd_app, csnd_one. rewrite <- Em.
      destruct (keyeqb k (wkey w)) eqn:Ek.
      * apply keyeqb_eq in Ek. subst k. rewrite Hna', Hnb2. cbn [map concat app]. rewrite !app_nil_r. rewrite <- ?app_assoc. reflexivity.
      * rewrite !app_nil_r. reflexivity.
    + exists (ga ++ [(OP (op_hex (fst g)) (op_type (fst g)) (op_dest (fst g)) (op_orig (fst g)) (op_data (fst g) ++ w_data w), snd g ++ [w])] ++ gb), gd.
      cbn [po_open po_done].
      split; [rewrite !map_app; reflexivity|]. split; [auto|].
      split. { apply Forall_app; split; auto. constructor; auto. destruct Hg as (G1 & G2 & tm & pw & G3 & G4).
        split; [cbn; destruct (snd g); discriminate|]. split; [cbn; apply Forall_app; split; auto|].
        exists tm, pw. cbn [fst snd op_data op_orig op_dest]. split.
        - destruct G3 as (w0 & G3 & G5). exists w0. split; auto. apply in_or_app; auto.
        - rewrite G4, map_app, concat_app. cbn. rewrite !app_nil_r, <- !app_assoc. reflexivity. }
      split; [auto|].
      split; [apply Forall_app; split; auto; constructor; auto|].
      split. { rewrite !map_app. exact Hnd. }
      intros k. specialize (Hk k). rewrite wfil_app, wfil_one, !csnd_app, !csnd_one, <- Hk. cbn [fst snd].
      change (g :: gb) with ([g] ++ gb). rewrite !csnd_app, csnd_one.
      match goal with |- context [okey (OP ?a ?b ?c ?d ?e)] => change (okey (OP a b c d e)) with (okey (fst g)) end. rewrite <- Em.
      destruct (keyeqb k (wkey w)) eqn:Ek.
      * apply keyeqb_eq in Ek. subst k. rewrite Hna', Hnb2. cbn [map concat app]. rewrite !app_nil_r. rewrite <- ?app_assoc. reflexivity.
      * cbn [app]. rewrite !app_nil_r. reflexivity.
  - apply splitpkt_none in E. rewrite <- Eo in *.
    assert (Hnk : ~ In (wkey w) (map okey (map fst go))).
    { rewrite map_map. intros Hx. apply in_map_iff in Hx as (g & Ek & Hg). rewrite Forall_forall in E, Hnz.
      specialize (E (fst g) (in_map fst _ _ Hg)). rewrite pktmatch_key in E by (auto; apply Hnz; auto).
      rewrite Ek in E. change (w_dest w, w_orig w, w_type w) with (wkey w) in E. rewrite keyeqb_refl in E. discriminate. }
    exists (go ++ [(fresh, [w])]), gd. cbn [po_open po_done].
    split; [rewrite map_app; reflexivity|]. split; auto. split; [apply Forall_app; auto|]. split; auto.
    split; [apply Forall_app; auto|].
    split. { rewrite map_app. cbn [map]. change (okey fresh) with (wkey w).
      apply NoDup_rev in Hnd. rewrite <- (rev_involutive (map okey (map fst go) ++ [wkey w])).
      apply NoDup_rev. rewrite rev_app_distr. cbn [rev app]. constructor; [rewrite <- in_rev; auto|auto]. }
    intros k. specialize (Hk k). rewrite wfil_app, wfil_one, csnd_app, csnd_one, <- Hk, app_assoc. reflexivity.
Qed.
Lemma ginv_all ws : Forall nzop ws -> ginv (fold_left wstep ws (PO [] [])) ws.
Proof.
  intros H. rewrite <- (rev_involutive ws) in *. induction (rev ws) as [|w l IH]; cbn [rev].
  - exists [], []. repeat split; try constructor.
  - cbn [rev] in H. apply Forall_app in H as [H1 H2]. rewrite fold_left_app. cbn [fold_left]. inversion H2; subst. apply ginv_step; auto.
Qed.
Lemma closed_all ws : Forall nzop ws -> exists gd,
  map fst gd = po_done (ClosePackets (fold_left wstep ws (PO [] []))) /\ Forall (pholds [0; 0]) gd /\
  forall k, concat (map snd (kfil k gd)) = wfil k ws.
Proof.
  intros H. destruct (ginv_all ws H) as (go & gd & Eo & Ed & Ho & Hd & _ & _ & Hk).
  exists (gd ++ map (fun g => (finish1 (fst g), snd g)) go). split; [|split].
  - cbn [ClosePackets po_done]. rewrite map_app, Ed, <- Eo, !map_map. reflexivity.
  - apply Forall_app; split; auto. apply Forall_map. eapply Forall_impl; [|exact Ho]. intros g (G1 & G2 & tm & pw & G3 & G4).
    split; auto. split; auto. exists tm, pw. split; auto. cbn [finish1 fst snd op_data op_orig op_dest].
    rewrite G4, app_nil_r, <- !app_assoc. reflexivity.
  - intros k. rewrite csnd_app, <- Hk. f_equal. clear. induction go as [|g go IH]; auto.
    cbn [map]. change ((finish1 (fst g), snd g) :: ?l) with ([(finish1 (fst g), snd g)] ++ l). change (g :: go) with ([g] ++ go).
    rewrite !csnd_app, !csnd_one. cbn [fst snd]. change (okey (finish1 (fst g))) with (okey (fst g)).
    unfold gpkt in *. rewrite IH. reflexivity.
Qed.
