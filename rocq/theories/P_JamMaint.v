(** Lemmas for the maintenance of a JAM area. *)
From Verif Require Import Base M_Str P_Str M_Mem M_Jam S_Jam P_Jam M_JamMaint S_JamMaint.

Definition bhok (bh : jbase) (num act : Z) : Prop := base_ok bh /\ b_num bh = num /\ b_active bh = act mod 4294967296.
Lemma rep_write K j s bh : rep K j s -> bhok bh (x_num s) (x_active s) -> rep K (fst (JAM_WriteMBHeader j bh)) s.
Proof.
  intros (b & ps & Ha & Hb & Hnum & Hact & Hidx & Hold & Hlen) (B1 & B2 & B3). destruct (write_base _ b (stamped bh) Ha Hb (stamped_ok _ B1)) as (V1 & V2 & V3). exists (stamped bh), ps. cbn [JAM_WriteMBHeader fst j_hdr j_txt j_idx j_lrd]. split; auto. split; [apply stamped_ok; auto|]. split; [exact B2|]. split; [exact B3|]. split; auto. split; [|rewrite V2; auto]. eapply holds_same; eauto.
Qed.
Lemma bhok_stamped bh num act : bhok bh num act -> bhok (stamped bh) num act.
Proof. intros (H1 & H2 & H3). split; [apply stamped_ok; auto|]. split; auto. Qed.
(** a slot of a base *)
Lemma rep_slot K j s n : rep K j s -> 0 <= n -> match nth_error (x_slots s) (Z.to_nat n) with
  | None => JAM_ReadOnlyHeader j n = Bad JAM_IO_ERROR
  | Some None => JAM_ReadOnlyHeader j n = Bad JAM_NO_MESSAGE
  | Some (Some m) => msg_ok m /\ exists h, JAM_ReadOnlyHeader j n = Good h /\ placeless h = a_hdr m
  end.
Proof.
  intros (b & ps & Ha & Hb & Hnum & Hact & Hidx & Hold & Hlen) Hn. destruct j as [hdr txt idx lrd]. cbn [j_hdr j_txt j_idx] in *. subst idx. rewrite readonly_holds with (ss := x_slots s) by auto. destruct Hold as (_ & G2 & _). pose proof (Forall2_nth _ _ _ G2 (Z.to_nat n)) as Hs.
  destruct (nth_error (x_slots s) (Z.to_nat n)) as [[m|]|], (nth_error ps (Z.to_nat n)) as [[[[c o] t]|]|]; cbn [slotp] in Hs; try contradiction; auto. destruct Hs as (A & _). split; auto. eexists. split; [reflexivity|]. pose proof (msg_placeless m t A) as H. apply (f_equal a_hdr) in H. exact H.
Qed.
Lemma rep_full K j s n m : rep K j s -> 0 <= n -> nth_error (x_slots s) (Z.to_nat n) = Some (Some m) ->
  exists h, JAM_ReadMsgHeader j n = Some (Good (h, a_subs m)) /\ JAM_ReadMsgText j (h_txtoff h) (h_txtlen h) = Good (a_text m) /\ placeless h = a_hdr m.
Proof.
  intros HR Hn E. destruct (rep_read _ _ _ HR) as (_ & _ & _ & _ & H). specialize (H n Hn). unfold aread in H. rewrite E in H. unfold read_message in H. destruct (JAM_ReadMsgHeader j n) as [[[h subs]|]|]; try discriminate. destruct (JAM_ReadMsgText j (h_txtoff h) (h_txtlen h)) as [text|] eqn:Et; [|discriminate]. assert (Em : MSG (placeless h) subs text = m) by congruence. subst m. exists h. auto.
Qed.
Lemma setbit31 a : Z.lor a MSG_DELETED = Z.setbit a 31.
Proof. reflexivity. Qed.
Lemma setbit_u32 a : is_u32 a -> is_u32 (Z.setbit a 31).
Proof.
  intros [H1 H2]. assert (E : Z.setbit a 31 mod 2 ^ 32 = Z.setbit a 31); [|unfold is_u32; rewrite <- E; apply (Z.mod_pos_bound _ (2 ^ 32)); lia]. rewrite <- Z.land_ones by lia. apply Z.bits_inj'. intros n Hn. rewrite Z.land_spec, Z.testbit_ones, Z.setbit_eqb by lia.
  destruct (Z.ltb_spec n 32); [destruct (Z.leb_spec 0 n); [apply andb_true_r|lia]|]. destruct (Z.eqb_spec 31 n); [lia|]. cbn [orb]. replace (Z.testbit a n) with false; [destruct (0 <=? n); reflexivity|]. symmetry. destruct (Z.eqb_spec a 0) as [->|]; [apply Z.bits_0|]. apply Z.bits_above_log2; [lia|]. assert (Z.log2 a < 32) by (apply Z.log2_lt_pow2; lia). lia.
Qed.
Lemma gone_mark m : gone (a_hdr (mark m)) = true.
Proof. unfold gone, mark. cbn [a_hdr with_attr h_attr]. apply Z.setbit_eq. lia. Qed.
Lemma mark_ok m : msg_ok m -> msg_ok (mark m).
Proof.
  intros (H & Hr). split; [|exact Hr]. destruct H as (H1 & H2 & H3 & F). split; auto. split; auto. split; auto. cbn [mark a_hdr with_attr h_times h_msgid h_reply h_replyto h_reply1st h_replynext h_written h_received h_processed h_num h_attr h_attr2 h_pw h_cost].
  repeat match goal with H : Forall _ (_ :: _) |- _ => inversion_clear H end. repeat (apply Forall_cons; [auto using setbit_u32|]). constructor.
Qed.
Lemma hdr_fine_placeless h : hdr_fine (placeless h) -> hdr_fine h.
Proof. exact (fun H => H). Qed.
Lemma nth_mid {A} (a : list A) x b : nth_error (a ++ x :: b) (length a) = Some x.
Proof. rewrite nth_error_app2, Nat.sub_diag by lia. reflexivity. Qed.

Lemma mark_rep K j num act pre m l bh : rep K j (AB num act (pre ++ Some m :: l)) -> gone (a_hdr m) = false -> bhok bh num act -> forall h, JAM_ReadOnlyHeader j (Z.of_nat (length pre)) = Good h ->
  rep K (fst (markmsg j bh (Z.of_nat (length pre)) h)) (AB num (act - 1) (pre ++ Some (mark m) :: l)) /\ bhok (snd (markmsg j bh (Z.of_nat (length pre)) h)) num (act - 1).
Proof.
  intros HR Hg Hbh h Eh. pose proof (rep_slot _ _ _ (Z.of_nat (length pre)) HR ltac:(lia)) as Hs. cbn [x_slots] in Hs. rewrite Nat2Z.id, nth_mid in Hs. destruct Hs as (A & h' & Eh' & Ep). assert (h' = h) by congruence. subst h'. clear Eh'.
  pose proof (mark_ok m A) as A'. unfold markmsg. rewrite setbit31.
  assert (Fo : op_fine (Change (Z.of_nat (length pre)) (with_attr h (Z.setbit (h_attr h) 31)))) by (split; [lia|]; destruct A' as (A' & _); unfold mark in A'; rewrite <- Ep in A'; exact A').
  destruct (change_step _ _ _ _ _ HR Fo) as [H|(c & E & _)]; [|congruence]. rewrite Eh in H.
  replace (with_layout (with_attr h (Z.setbit (h_attr h) 31)) (h_sublen h) (h_txtoff h) (h_txtlen h)) with (with_attr h (Z.setbit (h_attr h) 31)) in H by (destruct h; reflexivity).
  assert (Es : astep (AB num act (pre ++ Some m :: l)) (Change (Z.of_nat (length pre)) (with_attr h (Z.setbit (h_attr h) 31))) = AB num (act - 1) (pre ++ Some (mark m) :: l)).
  { cbn [astep]. unfold aread. cbn [x_slots x_num x_active]. rewrite Nat2Z.id, nth_mid. rewrite Hg. assert (Eg : gone (with_attr h (Z.setbit (h_attr h) 31)) = true) by (unfold gone; cbn [with_attr h_attr]; apply Z.setbit_eq; lia). rewrite Eg. cbn [andb negb]. rewrite setslot_split by apply Nat2Z.id. f_equal. f_equal. f_equal. f_equal. unfold mark. rewrite <- Ep. destruct h. reflexivity. }
  rewrite Es in H. assert (Hbh' : bhok (with_active bh (u32 (b_active bh - 1))) num (act - 1)).
  { destruct Hbh as (B1 & B2 & B3). split; [apply with_active_ok; auto; apply u32_range|]. split; auto. cbn [with_active b_active]. rewrite B3. apply sub_u32. }
  split; [apply rep_write; auto|]. cbn [JAM_WriteMBHeader snd]. apply bhok_stamped. auto.
Qed.
Fixpoint bn (keep active : Z) (l : list (option amsg)) : list (option amsg) :=
  match l with
  | [] => []
  | Some m :: r => if negb (gone (a_hdr m)) && (keep <? active) then Some (mark m) :: bn keep (active - 1) r else Some m :: bn keep active r
  | None :: r => None :: bn keep active r
  end.
Lemma bn_stop keep active l : active <= keep -> bn keep active l = l.
Proof. intros H. induction l as [|[m|] l IH]; cbn [bn]; [reflexivity| |rewrite IH; reflexivity]. destruct (Z.ltb_spec keep active); [lia|]. rewrite andb_false_r, IH. reflexivity. Qed.
Lemma gone_placeless h m : placeless h = a_hdr m -> deleted h = gone (a_hdr m).
Proof. intros <-. rewrite deleted_gone. reflexivity. Qed.
Lemma app_one {A} (a : list A) x b : a ++ x :: b = (a ++ [x]) ++ b.
Proof. rewrite <- app_assoc. reflexivity. Qed.
Lemma len_one {A} (a : list A) x : Z.of_nat (length (a ++ [x])) = Z.of_nat (length a) + 1.
Proof. rewrite app_length. cbn [length]. lia. Qed.
Lemma bynumber_rep K keep l : forall j num act pre bh active, rep K j (AB num act (pre ++ l)) -> bhok bh num act ->
  exists j' bh' act', bynumber (length l) keep j bh active (Z.of_nat (length pre)) = (j', bh', active - (act - act')) /\ rep K j' (AB num act' (pre ++ bn keep active l)) /\ bhok bh' num act' /\ act - act' = count_live l - count_live (bn keep active l).
Proof.
  induction l as [|x l IH]; intros j num act pre bh active HR Hbh; cbn [length bynumber].
  - exists j, bh, act. rewrite Z.sub_diag, Z.sub_0_r. cbn [bn]. repeat split; auto; try apply Hbh.
  - destruct (Z.leb_spec active keep) as [Hk|Hk]; [exists j, bh, act; rewrite bn_stop by auto; rewrite Z.sub_diag, Z.sub_0_r; split; auto; split; auto; split; auto; lia|].
    pose proof (rep_slot _ _ _ (Z.of_nat (length pre)) HR ltac:(lia)) as Hs. cbn [x_slots] in Hs. rewrite Nat2Z.id, nth_mid in Hs. assert (skip : forall y, y = x -> (forall m, y = Some m -> gone (a_hdr m) = true) -> exists j' bh' act', bynumber (length l) keep j bh active (Z.of_nat (length pre) + 1) = (j', bh', active - (act - act')) /\ rep K j' (AB num act' (pre ++ y :: bn keep active l)) /\ bhok bh' num act' /\ act - act' = count_live (y :: l) - count_live (y :: bn keep active l)).
    { intros y -> Hy. rewrite (app_one pre x l) in HR. rewrite <- (len_one pre x). destruct (IH _ _ _ _ _ active HR Hbh) as (j' & bh' & act' & E & HR' & Hb' & Hd). exists j', bh', act'. split; auto. rewrite (app_one pre x). split; auto. split; auto. unfold count_live in *. cbn [filter]. destruct (live x); cbn [length]; lia. }
    destruct x as [m|]; [|rewrite Hs; cbn [bn]; apply skip; auto; discriminate]. destruct Hs as (A & h & Eh & Ep). rewrite Eh, (gone_placeless h m Ep). cbn [bn]. destruct (gone (a_hdr m)) eqn:Hg; cbn [negb andb].
    + apply skip; auto. intros m' Em. congruence.
    + destruct (Z.ltb_spec keep active); [|lia]. destruct (mark_rep _ _ _ _ _ _ _ _ HR Hg Hbh h Eh) as [HR1 Hbh1]. destruct (markmsg j bh (Z.of_nat (length pre)) h) as [j1 bh1]. cbn [fst snd] in *.
      rewrite (app_one pre (Some (mark m)) l) in HR1. rewrite <- (len_one pre (Some (mark m))). destruct (IH _ _ _ _ _ (active - 1) HR1 Hbh1) as (j' & bh' & act' & E & HR' & Hb' & Hd). exists j', bh', act'. split; [rewrite E; f_equal; lia|]. rewrite (app_one pre (Some (mark m))). split; auto. split; auto.
      unfold count_live in *. cbn [filter live]. rewrite gone_mark, Hg. cbn [negb length]. lia.
Qed.
Definition bd (keep today : Z) (x : option amsg) : option amsg :=
  match x with Some m => if outdated keep today m && negb (gone (a_hdr m)) then Some (mark m) else Some m | None => None end.
Lemma msgday_of h : msgday h = day_of h.
Proof. unfold msgday, day_of. cbn [filter]. destruct (h_received h / 86400 =? 0) eqn:E1; cbn [negb]; [|rewrite E1; reflexivity]. destruct (h_processed h / 86400 =? 0) eqn:E2; cbn [negb]; [|reflexivity]. destruct (Z.eqb_spec (h_written h / 86400) 0); cbn [negb hd]; auto. Qed.
Lemma bydate_rep K keep today l : forall j num act pre bh, rep K j (AB num act (pre ++ l)) -> bhok bh num act ->
  exists j' bh' act', bydate (length l) keep today j bh (Z.of_nat (length pre)) = (j', bh') /\ rep K j' (AB num act' (pre ++ map (bd keep today) l)) /\ bhok bh' num act' /\ act - act' = count_live l - count_live (map (bd keep today) l).
Proof.
  induction l as [|x l IH]; intros j num act pre bh HR Hbh; cbn [length bydate map].
  - exists j, bh, act. repeat split; auto; try apply Hbh. lia.
  - pose proof (rep_slot _ _ _ (Z.of_nat (length pre)) HR ltac:(lia)) as Hs. cbn [x_slots] in Hs. rewrite Nat2Z.id, nth_mid in Hs. assert (skip : exists j' bh' act', bydate (length l) keep today j bh (Z.of_nat (length pre) + 1) = (j', bh') /\ rep K j' (AB num act' (pre ++ x :: map (bd keep today) l)) /\ bhok bh' num act' /\ act - act' = count_live (x :: l) - count_live (x :: map (bd keep today) l)).
    { rewrite (app_one pre x l) in HR. rewrite <- (len_one pre x). destruct (IH _ _ _ _ _ HR Hbh) as (j' & bh' & act' & E & HR' & Hb' & Hd). exists j', bh', act'. split; auto. rewrite (app_one pre x). split; auto. split; auto. unfold count_live in *. cbn [filter]. destruct (live x); cbn [length]; lia. }
    destruct x as [m|]; [|rewrite Hs; exact skip]. destruct Hs as (A & h & Eh & Ep). rewrite Eh, (gone_placeless h m Ep), msgday_of. replace (day_of h) with (day_of (a_hdr m)) by (rewrite <- Ep; reflexivity). cbn [bd]. unfold outdated. fold (u32 (today - day_of (a_hdr m))). destruct (_ && _) eqn:Ec; [|exact skip].
    apply andb_prop in Ec as [_ Hg]. apply negb_true_iff in Hg. destruct (mark_rep _ _ _ _ _ _ _ _ HR Hg Hbh h Eh) as [HR1 Hbh1]. destruct (markmsg j bh (Z.of_nat (length pre)) h) as [j1 bh1]. cbn [fst snd] in *.
    rewrite (app_one pre (Some (mark m)) l) in HR1. rewrite <- (len_one pre (Some (mark m))). destruct (IH _ _ _ _ _ HR1 Hbh1) as (j' & bh' & act' & E & HR' & Hb' & Hd). exists j', bh', act'. split; auto. rewrite (app_one pre (Some (mark m))). split; auto. split; auto.
    unfold count_live in *. cbn [filter live]. rewrite gone_mark, Hg. cbn [negb length]. lia.
Qed.

(** ** Packing *)
Definition msize (m : amsg) : Z := 76 + subsize (a_subs m) + Z.of_nat (length (a_text m)).
Definition slotsum (l : list (option amsg)) : Z := fold_right (fun x n => match x with Some m => msize m | None => 0 end + n) 0 l.
Lemma slotsum_app a b : slotsum (a ++ b) = slotsum a + slotsum b.
Proof. unfold slotsum. induction a as [|x a IH]; cbn [app fold_right]; [lia|]. rewrite IH. lia. Qed.
Lemma msize_pos m : 76 <= msize m.
Proof. unfold msize. pose proof (subsize_nonneg (a_subs m)). lia. Qed.
Lemma slotsum_nonneg l : 0 <= slotsum l.
Proof. unfold slotsum. induction l as [|[m|] l IH]; cbn [fold_right]; try lia. pose proof (msize_pos m). lia. Qed.
Fixpoint packs (n : Z) (l : list (option amsg)) : list (option amsg) :=
  match l with [] => [] | x :: r => (match x with Some m => if gone (a_hdr m) then None else Some (renum (n mod 4294967296) m) | None => None end) :: packs (n + 1) r end.
Lemma renum_new n m : msg_ok m -> forall h, placeless h = a_hdr m -> MSG (newhdr n h (a_subs m) (a_text m)) (a_subs m) (a_text m) = renum n m.
Proof. intros (_ & _ & _ & _ & H1 & H2 & H3) h E. unfold renum. rewrite <- E in *. cbn [placeless with_layout h_sublen h_txtlen h_txtoff] in *. rewrite H1, H2. reflexivity. Qed.
Lemma bhok_active bh num a : bhok bh num a -> bhok (with_active bh (u32 (b_active bh + 1))) num (a + 1).
Proof. intros (B1 & B2 & B3). split; [apply with_active_ok; auto; apply u32_range|]. split; auto. cbn [with_active b_active]. rewrite B3. apply mod_add_u32. Qed.
Lemma copy_rest crc Kj j numj actj (Hcrc : forall u, is_u32 (crc u)) l : forall K pre n bh N a sl, rep Kj j (AB numj actj (pre ++ l)) -> rep K n (AB N a sl) -> bhok bh N a -> K + slotsum l < 4294967295 ->
  exists n' bh' a', copymsgs crc (length l) j n bh true (Z.of_nat (length pre)) = Some (Some (n', bh')) /\ rep (K + slotsum l) n' (AB N a' (sl ++ packs (N + Z.of_nat (length sl)) l)) /\ bhok bh' N a' /\ a' = a + count_live l.
Proof.
  induction l as [|x l IH]; intros K pre n bh N a sl HJ HN Hbh HK; cbn [length copymsgs packs].
  - exists n, bh, a. cbn [slotsum fold_right]. rewrite app_nil_r, Z.add_0_r. split; auto. split; auto. split; auto. unfold count_live. cbn. lia.
  - pose proof (rep_slot _ _ _ (Z.of_nat (length pre)) HJ ltac:(lia)) as Hs. cbn [x_slots] in Hs. rewrite Nat2Z.id, nth_mid in Hs. assert (HJ' := HJ). rewrite (app_one pre x l) in HJ'. pose proof (slotsum_nonneg l) as Hp.
    assert (gap : live x = false -> exists n' bh' a', copymsgs crc (length l) j (snd (JAM_AddEmptyMessage n)) bh true (Z.of_nat (length pre) + 1) = Some (Some (n', bh')) /\ rep (K + slotsum (x :: l)) n' (AB N a' (sl ++ None :: packs (N + Z.of_nat (length sl) + 1) l)) /\ bhok bh' N a' /\ a' = a + count_live (x :: l)).
    { intros Hx. assert (Hm : 0 <= match x with Some m => msize m | None => 0 end) by (destruct x as [m|]; [pose proof (msize_pos m)|]; lia). unfold slotsum in *. cbn [fold_right] in HK. fold (slotsum l) in *. rewrite <- (len_one pre x).
      destruct (IH (K + match x with Some m => msize m | None => 0 end) (pre ++ [x]) (snd (JAM_AddEmptyMessage n)) bh N a (sl ++ [None]) HJ') as (n' & bh' & a' & E & HR & Hb & Ha); auto.
      - pose proof (empty_step _ _ _ HN) as HE. cbn [astep x_num x_active x_slots] in HE. destruct HE as (b & ps & G). exists b, ps. intuition lia.
      - lia.
      - exists n', bh', a'. split; auto. cbn [fold_right]. fold (slotsum l). rewrite Z.add_assoc. rewrite (app_one sl None). rewrite len_one, Z.add_assoc in HR. split; auto. split; auto. unfold count_live in *. cbn [filter]. rewrite Hx. exact Ha. }
    destruct x as [m|]; [|rewrite Hs, Z.eqb_refl; apply gap; reflexivity]. destruct Hs as (A & h & Eh & Ep). rewrite Eh, (gone_placeless h m Ep). destruct (gone (a_hdr m)) eqn:Hg; [apply gap; cbn [live]; rewrite Hg; reflexivity|]. clear gap.
    destruct (rep_full _ _ _ (Z.of_nat (length pre)) m HJ) as (h2 & E1 & E2 & E3); [lia|cbn [x_slots]; rewrite Nat2Z.id; apply nth_mid|]. rewrite E1. cbn [obind]. rewrite E2.
    assert (Fo : op_fine (Add h2 (a_subs m) (a_text m))) by (destruct A as (A1 & A2 & A3 & A4 & _); split; [apply hdr_fine_placeless; rewrite E3; exact A1|]; auto).
    unfold slotsum in HK. cbn [fold_right] in HK. fold (slotsum l) in HK. assert (Hos : opsize (Add h2 (a_subs m) (a_text m)) = msize m) by reflexivity.
    destruct (rep_read _ _ _ HN) as (b & Hb & _). destruct (username_add crc nocuts n h2 (a_subs m) (a_text m) b Hb) as ((st & n1) & EA); [apply Fo|]. destruct (add_any _ _ _ _ _ _ _ _ _ _ Hcrc HN Fo ltac:(lia) EA) as [H _]. destruct (H eq_refl) as [-> HN1]. rewrite EA. cbn [obind fst snd negb Z.eqb]. clear H. rewrite Hos in HN1.
    cbn [astep x_num x_active x_slots] in HN1. replace (gone h2) with false in HN1 by (rewrite <- Hg, <- E3; reflexivity). rewrite (renum_new _ m A h2 E3) in HN1. rewrite <- (len_one pre (Some m)). destruct (IH _ _ _ _ _ _ _ HJ' HN1 (bhok_active _ _ _ Hbh) ltac:(lia)) as (n' & bh' & a' & E & HR & Hb' & Ha).
    exists n', bh', a'. split; auto. unfold slotsum. cbn [fold_right]. fold (slotsum l). rewrite Z.add_assoc. rewrite <- app_assoc in HR. cbn [app] in HR. rewrite len_one, Z.add_assoc in HR. split; auto. split; auto. unfold count_live in *. cbn [filter live]. rewrite Hg. cbn [negb length]. lia.
Qed.
(** the slots in front of the first live message *)
Fixpoint leading (l : list (option amsg)) : nat := match l with [] => 0 | x :: r => if live x then 0 else S (leading r) end.
Lemma bhok_num bh num a : bhok bh num a -> bhok (with_num bh (u32 (b_num bh + 1))) ((num + 1) mod 4294967296) a.
Proof.
  intros ((H1 & H2 & F) & B2 & B3). split; [|split; [cbn [with_num b_num]; rewrite B2; reflexivity|exact B3]]. repeat match goal with H : Forall _ (_ :: _) |- _ => inversion_clear H end. split; [exact H1|]. split; [exact H2|]. unfold with_num. cbn [b_created b_mod b_active b_pw b_num]. repeat (apply Forall_cons; [auto; try apply u32_range|]). constructor.
Qed.
Lemma copy_first crc Kj j numj actj (Hcrc : forall u, is_u32 (crc u)) l : forall pre n bh N, rep Kj j (AB numj actj (pre ++ l)) -> (exists N0, rep 1024 n (AB N0 0 [])) -> bhok bh (N mod 4294967296) 0 -> 1024 + slotsum l < 4294967295 ->
  exists n' bh', copymsgs crc (length l) j n bh false (Z.of_nat (length pre)) = Some (Some (n', bh')) /\
    let N' := (N + Z.of_nat (leading l)) mod 4294967296 in bhok bh' N' (count_live l) /\ forall bh2, bhok bh2 N' (count_live l) -> rep (1024 + slotsum l) (fst (JAM_WriteMBHeader n' bh2)) (AB N' (count_live l) (packs N' (skipn (leading l) l))).
Proof.
  induction l as [|x l IH]; intros pre n bh N HJ (N0 & HN) Hbh HK; cbn [length copymsgs].
  - exists n, bh. split; auto. cbv zeta. cbn [leading]. rewrite Z.add_0_r. split; auto. intros bh2 (B1 & B2 & B3). destruct HN as (b & ps & Ha & Hb & Hnum & Hact & Hidx & Hold & Hlen). cbn [x_num x_active x_slots slotsum fold_right] in *. destruct (write_base _ b (stamped bh2) Ha Hb (stamped_ok _ B1)) as (V1 & V2 & V3). exists (stamped bh2), ps. cbn [JAM_WriteMBHeader fst j_hdr j_txt j_idx j_lrd x_num x_active x_slots packs skipn]. split; auto. split; [apply stamped_ok; auto|]. split; auto. split; auto. split; auto. split; [|rewrite V2; lia]. eapply holds_same; eauto.
  - pose proof (rep_slot _ _ _ (Z.of_nat (length pre)) HJ ltac:(lia)) as Hs. cbn [x_slots] in Hs. rewrite Nat2Z.id, nth_mid in Hs. assert (HJ' := HJ). rewrite (app_one pre x l) in HJ'. pose proof (slotsum_nonneg l) as Hp.
    assert (Hm : 0 <= match x with Some m => msize m | None => 0 end) by (destruct x as [m|]; [pose proof (msize_pos m)|]; lia). assert (Esl : slotsum (x :: l) = match x with Some m => msize m | None => 0 end + slotsum l) by reflexivity.
    assert (gap : live x = false -> exists n' bh', copymsgs crc (length l) j n (with_num bh (u32 (b_num bh + 1))) false (Z.of_nat (length pre) + 1) = Some (Some (n', bh')) /\
       let N' := (N + Z.of_nat (leading (x :: l))) mod 4294967296 in bhok bh' N' (count_live (x :: l)) /\ forall bh2, bhok bh2 N' (count_live (x :: l)) -> rep (1024 + slotsum (x :: l)) (fst (JAM_WriteMBHeader n' bh2)) (AB N' (count_live (x :: l)) (packs N' (skipn (leading (x :: l)) (x :: l))))).
    { intros Hx. rewrite <- (len_one pre x). destruct (IH (pre ++ [x]) n (with_num bh (u32 (b_num bh + 1))) (N + 1) HJ') as (n' & bh' & E & Hb & HR); [eauto| |lia|].
      - apply bhok_num in Hbh. rewrite Zplus_mod_idemp_l in Hbh. exact Hbh.
      - exists n', bh'. split; auto. cbn [leading]. rewrite Hx. cbn [skipn]. assert (Ec : count_live (x :: l) = count_live l) by (unfold count_live; cbn [filter]; rewrite Hx; reflexivity). rewrite Ec. replace (N + Z.of_nat (S (leading l))) with (N + 1 + Z.of_nat (leading l)) by lia. cbv zeta in *. split; auto. intros bh2 H2. specialize (HR bh2 H2). destruct HR as (b & ps & G). exists b, ps. intuition lia. }
    destruct x as [m|]; [|rewrite Hs, Z.eqb_refl; apply gap; reflexivity]. destruct Hs as (A & h & Eh & Ep). rewrite Eh, (gone_placeless h m Ep). destruct (gone (a_hdr m)) eqn:Hg; [apply gap; cbn [live]; rewrite Hg; reflexivity|]. clear gap.
    destruct (rep_full _ _ _ (Z.of_nat (length pre)) m HJ) as (h2 & E1 & E2 & E3); [lia|cbn [x_slots]; rewrite Nat2Z.id; apply nth_mid|]. rewrite E1. cbn [JAM_WriteMBHeader obind]. rewrite E2.
    assert (Fo : op_fine (Add h2 (a_subs m) (a_text m))) by (destruct A as (A1 & A2 & A3 & A4 & _); split; [apply hdr_fine_placeless; rewrite E3; exact A1|]; auto).
    assert (Hos : opsize (Add h2 (a_subs m) (a_text m)) = msize m) by reflexivity.
    (* the base with its number *)
    assert (HN1 : rep 1024 (fst (JAM_WriteMBHeader n bh)) (AB (N mod 4294967296) 0 [])).
    { destruct HN as (b & ps & Ha & Hb & Hnum & Hact & Hidx & Hold & Hlen). destruct Hbh as (B1 & B2 & B3). destruct (write_base _ b (stamped bh) Ha Hb (stamped_ok _ B1)) as (V1 & V2 & V3). exists (stamped bh), ps. cbn [JAM_WriteMBHeader fst j_hdr j_txt j_idx j_lrd x_num x_active x_slots] in *. split; auto. split; [apply stamped_ok; auto|]. split; auto. split; auto. split; auto. split; [|rewrite V2; lia]. eapply holds_same; eauto. }
    cbn [JAM_WriteMBHeader fst] in HN1. set (n1 := JAM (fwriteat 0 (basebytes (stamped bh)) (j_hdr n)) (j_txt n) (j_idx n) (j_lrd n)) in *.
    destruct (rep_read _ _ _ HN1) as (b & Hb & _). destruct (username_add crc nocuts n1 h2 (a_subs m) (a_text m) b Hb) as ((st & n2) & EA); [apply Fo|]. destruct (add_any _ _ _ _ _ _ _ _ _ _ Hcrc HN1 Fo ltac:(lia) EA) as [H _]. destruct (H eq_refl) as [-> HN2]. rewrite EA. cbn [obind fst snd negb Z.eqb]. clear H. rewrite Hos in HN2.
    cbn [astep x_num x_active x_slots] in HN2. replace (gone h2) with false in HN2 by (rewrite <- Hg, <- E3; reflexivity). rewrite (renum_new _ m A h2 E3) in HN2. rewrite <- (len_one pre (Some m)). cbn [length app] in HN2.
    destruct (copy_rest crc Kj j numj actj Hcrc l _ _ _ _ _ _ _ HJ' HN2 (bhok_active _ _ _ (bhok_stamped _ _ _ Hbh)) ltac:(lia)) as (n' & bh' & a' & E & HR & Hb' & Ha).
    exists n', bh'. split; auto. cbn [leading live]. rewrite Hg. cbn [negb skipn Z.of_nat packs]. rewrite Hg, Z.add_0_r. assert (Ec : a' = count_live (Some m :: l)) by (rewrite Ha; unfold count_live; cbn [filter live]; rewrite Hg; cbn [negb length]; lia). subst a'. rewrite <- Ec in *. cbv zeta. split; auto. intros bh2 H2.
    cbn [length app Z.of_nat Pos.of_succ_nat] in HR. rewrite Z.add_0_r in HR. rewrite Z.add_assoc in HR || idtac. apply rep_write with (bh := bh2) in HR; [|exact H2]. destruct HR as (b' & ps & G). exists b', ps. rewrite Esl. rewrite Z.add_assoc. exact G.
Qed.
