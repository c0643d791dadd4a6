(** The JAM message base: C37 and C38. *)
From Verif Require Import Base M_Str P_Str M_Mem M_Jam S_Jam P_Jam.

(** C37: a base made by the library, after any additions, empty additions, changes of headers
    and deletions, reads as the list of slots does: what was added comes back and an operation
    on one message leaves the others as they were. *)
Theorem C37_history crc now base ops : (forall u, is_u32 (crc u)) -> is_u32 base -> Forall op_fine ops -> sizes ops < 4294967295 ->
  exists j, jrun crc (JAM_CreateMB now base) ops = Some j /\
    (exists b, JAM_ReadMBHeader j = Good b /\ b_num b = base) /\
    forall n, 0 <= n -> read_message j n = Some (aread (fold_left astep ops (AB base 0 [])) n).
Proof.
  intros Hcrc Hb F Hs. destruct (run_rep crc ops Hcrc F 1024 _ _ (create_rep now base Hb) Hs) as (j & E & HR). exists j. split; auto. destruct (rep_read _ _ _ HR) as (b & H1 & H2 & _ & H3). split; auto. exists b. split; auto. rewrite H2.
  clear. enough (E : forall s, x_num (fold_left astep ops s) = x_num s) by apply E. induction ops as [|o ops IH]; intros s; [reflexivity|]. cbn [fold_left]. rewrite IH. destruct o; cbn [astep]; try reflexivity; destruct (aread s n); reflexivity.
Qed.
Lemma astep_len o s : length (x_slots (astep s o)) = (length (x_slots s) + match o with Add _ _ _ | AddEmpty => 1 | _ => 0 end)%nat.
Proof.
  destruct o as [h subs text| |n h|n]; cbn [astep x_slots]; [apply app_length|apply app_length| |]; (unfold aread; destruct (nth_error (x_slots s) (Z.to_nat n)) as [[m|]|] eqn:E; cbn [x_slots]; [|lia|lia]); apply nth_error_split in E as (a & b & Es & El); rewrite Es, setslot_split by auto; rewrite !app_length; cbn [length]; lia.
Qed.
(** In particular the message just added. *)
Theorem C37_added crc now base ops h subs text : (forall u, is_u32 (crc u)) -> is_u32 base -> Forall op_fine ops -> op_fine (Add h subs text) -> sizes (ops ++ [Add h subs text]) < 4294967295 ->
  exists j j', jrun crc (JAM_CreateMB now base) ops = Some j /\ JAM_AddMessage crc nocuts j h subs text = Some (0, j') /\
    let n := Z.of_nat (length (x_slots (fold_left astep ops (AB base 0 [])))) in
    read_message j n = Some (Bad JAM_IO_ERROR) /\
    read_message j' n = Some (Good (MSG (newhdr ((base + n) mod 4294967296) h subs text) subs text)) /\
    forall k, 0 <= k -> k <> n -> read_message j' k = read_message j k.
Proof.
  intros Hcrc Hb F Ho Hs. assert (Hs' : 1024 + fold_right (fun o n => opsize o + n) 0 ops + opsize (Add h subs text) < 4294967295).
  { unfold sizes in Hs. rewrite fold_right_app in Hs. cbn [fold_right] in Hs. enough (E : forall l k, fold_right (fun o n => opsize o + n) k l = fold_right (fun o n => opsize o + n) 0 l + k) by (rewrite E in Hs; lia). clear. induction l as [|o l IH]; intros k; cbn [fold_right]; [lia|]. rewrite IH. lia. }
  assert (H0 : 0 <= opsize (Add h subs text)) by (cbn [opsize]; pose proof (subsize_nonneg subs); lia).
  destruct (run_rep crc ops Hcrc F 1024 _ _ (create_rep now base Hb) ltac:(lia)) as (j & E & HR). destruct (rep_read _ _ _ HR) as (b & H1 & _ & _ & H2). destruct (username_add crc nocuts j h subs text b H1) as ((st & j') & E'); [apply Ho|].
  destruct (add_any _ _ _ _ _ _ _ _ _ _ Hcrc HR Ho Hs' E') as [H _]. destruct (H eq_refl) as [-> HR']. exists j, j'. split; auto. split; auto. destruct (rep_read _ _ _ HR') as (b' & _ & _ & _ & H3).
  assert (Ex : forall s, x_num (fold_left astep ops s) = x_num s) by (clear; induction ops as [|o ops IH]; intros s; [reflexivity|]; cbn [fold_left]; rewrite IH; destruct o; cbn [astep]; try reflexivity; destruct (aread s n); reflexivity).
  set (s := fold_left astep ops (AB base 0 [])) in *. assert (Exs : x_num s = base) by apply Ex. intros n. rewrite H2, H3 by (unfold n; lia). unfold aread. cbn [astep x_slots]. unfold n. rewrite Nat2Z.id, Exs. split; [|split].
  - rewrite (proj2 (nth_error_None _ _)) by lia. reflexivity.
  - rewrite nth_error_app2, Nat.sub_diag by lia. reflexivity.
  - intros k Hk Hkn. rewrite H2, H3 by auto. unfold aread. cbn [astep x_slots]. destruct (Nat.lt_ge_cases (Z.to_nat k) (length (x_slots s))); [rewrite nth_error_app1 by auto; reflexivity|]. rewrite (proj2 (nth_error_None (x_slots s) _)) by auto. rewrite (proj2 (nth_error_None _ _)) by (rewrite app_length; cbn [length]; lia). reflexivity.
Qed.

(** When writes fail, at any place, the messages that were there still read the same; and a
    reported success is one. *)
Lemma readindex_prefix hdr txt lrd ps x n : Forall place_ok ps -> 0 <= n -> (Z.to_nat n < length ps)%nat -> readindex (JAM hdr txt (index ps ++ x) lrd) n = readindex (JAM hdr txt (index ps) lrd) n.
Proof.
  intros F Hn H. rewrite readindex_place by auto. unfold readindex. cbn [j_idx]. destruct (nth_error ps (Z.to_nat n)) as [p|] eqn:E; [|apply nth_error_None in E; lia]. cbn [option_map].
  replace (n * 8) with (Z.of_nat (8 * Z.to_nat n)) by lia. change 8%nat with (length (idxbytes (entry p))) at 2. rewrite at_read; [|apply idx_nonempty|apply at_append, index_at; auto]. cbn [option_map].
  rewrite Forall_forall in F. destruct (entry_ok p) as [? ?]; [apply F; eapply nth_error_In; eauto|]. rewrite idx_back; auto.
Qed.
Lemma read_prefix hdr txt lrd ps x n : Forall place_ok ps -> 0 <= n -> (Z.to_nat n < length ps)%nat -> read_message (JAM hdr txt (index ps ++ x) lrd) n = read_message (JAM hdr txt (index ps) lrd) n.
Proof. intros F Hn H. unfold read_message, JAM_ReadMsgHeader. rewrite readindex_prefix by auto. reflexivity. Qed.
Lemma add_success crc cut j h subs text j' : JAM_AddMessage crc cut j h subs text = Some (0, j') -> JAM_AddMessage crc nocuts j h subs text = Some (0, j').
Proof.
  unfold JAM_AddMessage. destruct (JAM_ReadMBHeader j) as [b|c]; auto. unfold fappend_cut. cbn [nocuts c_txt c_hdr c_idx c_base].
  destruct text as [|c text]; [|destruct (c_txt cut); [discriminate|]]; cbn [negb]; (destruct (c_hdr cut); [destruct (username subs []); discriminate|]); cbn [negb]; (destruct (username subs []); [|discriminate]); cbn [obind]; (destruct (c_idx cut); [discriminate|]); cbn [negb]; (destruct (c_base cut); [discriminate|]); auto.
Qed.
Theorem C37_failed crc now base ops cut h subs text : (forall u, is_u32 (crc u)) -> is_u32 base -> Forall op_fine ops -> op_fine (Add h subs text) -> sizes (ops ++ [Add h subs text]) < 4294967295 ->
  exists j st j', jrun crc (JAM_CreateMB now base) ops = Some j /\ JAM_AddMessage crc cut j h subs text = Some (st, j') /\
    (forall k, 0 <= k < Z.of_nat (length (x_slots (fold_left astep ops (AB base 0 [])))) -> read_message j' k = read_message j k) /\
    (st = 0 -> read_message j' (Z.of_nat (length (x_slots (fold_left astep ops (AB base 0 []))))) =
                 Some (Good (MSG (newhdr ((base + Z.of_nat (length (x_slots (fold_left astep ops (AB base 0 []))))) mod 4294967296) h subs text) subs text))).
Proof.
  intros Hcrc Hb F Ho Hs. assert (Hs' : 1024 + fold_right (fun o n => opsize o + n) 0 ops + opsize (Add h subs text) < 4294967295).
  { unfold sizes in Hs. rewrite fold_right_app in Hs. cbn [fold_right] in Hs. enough (E : forall l k, fold_right (fun o n => opsize o + n) k l = fold_right (fun o n => opsize o + n) 0 l + k) by (rewrite E in Hs; lia). clear. induction l as [|o l IH]; intros k; cbn [fold_right]; [lia|]. rewrite IH. lia. }
  assert (H0 : 0 <= opsize (Add h subs text)) by (cbn [opsize]; pose proof (subsize_nonneg subs); lia).
  destruct (run_rep crc ops Hcrc F 1024 _ _ (create_rep now base Hb) ltac:(lia)) as (j & E & HR). destruct (rep_read _ _ _ HR) as (b & H1 & _ & _ & H2). destruct (username_add crc cut j h subs text b H1) as ((st & j') & E'); [apply Ho|].
  exists j, st, j'. split; auto. split; auto. split.
  - destruct (add_any _ _ _ _ _ _ _ _ _ _ Hcrc HR Ho Hs' E') as [_ (ps & x & Ei & Ei' & Hh)]. intros k Hk. rewrite H2 by lia. destruct j' as [hdr' txt' idx' lrd']. cbn [j_hdr j_txt j_idx] in *. subst idx'. assert (Hh' := Hh). destruct Hh' as (G1 & G2 & G3). rewrite read_prefix; auto; [|lia|rewrite <- (Forall2_len _ _ _ G2); lia].
    apply read_holds; auto. lia.
  - intros ->. apply add_success in E'. destruct (C37_added crc now base ops h subs text Hcrc Hb F Ho Hs) as (j0 & j1 & E0 & E1 & _ & H & _). assert (j0 = j) by congruence. subst j0. assert (j1 = j') by congruence. subst j1. exact H.
Qed.

(** C38: the counter of active messages is exact, in histories in which no message marked as
    deleted is brought back. *)
Definition livecount (l : list (option amsg)) : Z := Z.of_nat (length (filter (fun x => match x with Some m => negb (gone (a_hdr m)) | None => false end) l)).
Lemma livecount_app a b : livecount (a ++ b) = livecount a + livecount b.
Proof. unfold livecount. rewrite filter_app, app_length. lia. Qed.
Lemma livecount_one x : livecount [x] = match x with Some m => if gone (a_hdr m) then 0 else 1 | None => 0 end.
Proof. unfold livecount. cbn [filter]. destruct x as [m|]; [|reflexivity]. destruct (gone (a_hdr m)); reflexivity. Qed.
Lemma livecount_mid a x b : livecount (a ++ x :: b) = livecount a + livecount [x] + livecount b.
Proof. change (x :: b) with ([x] ++ b). rewrite !livecount_app. lia. Qed.
Definition bytesum (l : list jop) : Z := fold_right (fun o n => opsize o + n) 0 l.
Lemma opsize_nonneg o : 0 <= opsize o.
Proof. destruct o; cbn [opsize]; try lia. pose proof (subsize_nonneg subs). lia. Qed.
Lemma live_exact ops : forall s, no_undelete s ops -> x_active s = livecount (x_slots s) -> x_active (fold_left astep ops s) = livecount (x_slots (fold_left astep ops s)).
Proof.
  induction ops as [|o ops IH]; intros s Hu Ha; [exact Ha|]. cbn [fold_left no_undelete] in *. destruct Hu as [Hu1 Hu2]. apply IH; auto. clear IH Hu2. destruct o as [h subs text| |n h|n]; cbn [astep].
  - cbn [x_active x_slots]. rewrite livecount_app, livecount_one. cbn [a_hdr]. change (gone (newhdr _ h subs text)) with (gone h). destruct (gone h); lia.
  - cbn [x_active x_slots]. rewrite livecount_app, livecount_one. lia.
  - unfold aread in *. destruct (nth_error (x_slots s) (Z.to_nat n)) as [[m|]|] eqn:E; auto. apply nth_error_split in E as (a & b & Es & El). cbn [x_active x_slots]. rewrite Es, setslot_split by auto. rewrite Es in Ha. rewrite livecount_mid, livecount_one in *. cbn [a_hdr].
    change (gone (with_layout h _ _ _)) with (gone h). destruct (gone (a_hdr m)), (gone h); cbn [negb andb]; lia.
  - unfold aread in *. destruct (nth_error (x_slots s) (Z.to_nat n)) as [[m|]|] eqn:E; auto. apply nth_error_split in E as (a & b & Es & El). cbn [x_active x_slots]. rewrite Es, setslot_split by auto. rewrite Es in Ha. rewrite livecount_mid, livecount_one in *. destruct (gone (a_hdr m)); lia.
Qed.
Lemma steps_bound ops : forall s, 76 * Z.of_nat (length (filter (fun x => match x with Some _ => true | None => false end) (x_slots (fold_left astep ops s)))) <= 76 * Z.of_nat (length (filter (fun x => match x with Some _ => true | None => false end) (x_slots s))) + bytesum ops.
Proof.
  induction ops as [|o ops IH]; intros s; cbn [fold_left bytesum fold_right]; [lia|]. fold (bytesum ops). eapply Z.le_trans; [apply IH|]. clear IH. enough (76 * Z.of_nat (length (filter (fun x => match x with Some _ => true | None => false end) (x_slots (astep s o)))) <= 76 * Z.of_nat (length (filter (fun x => match x with Some _ => true | None => false end) (x_slots s))) + opsize o) by lia.
  destruct o as [h subs text| |n h|n]; cbn [astep x_slots opsize].
  - rewrite filter_app, app_length. cbn [filter length]. pose proof (subsize_nonneg subs). lia.
  - rewrite filter_app, app_length. cbn [filter length]. lia.
  - unfold aread. destruct (nth_error (x_slots s) (Z.to_nat n)) as [[m|]|] eqn:E; try lia. apply nth_error_split in E as (a & b & Es & El). cbn [x_slots]. rewrite Es, setslot_split by auto. rewrite !filter_app, !app_length. cbn [filter length]. lia.
  - unfold aread. destruct (nth_error (x_slots s) (Z.to_nat n)) as [[m|]|] eqn:E; try lia. apply nth_error_split in E as (a & b & Es & El). cbn [x_slots]. rewrite Es, setslot_split by auto. rewrite !filter_app, !app_length. cbn [filter length]. lia.
Qed.
Lemma livecount_le l : livecount l <= Z.of_nat (length (filter (fun x : option amsg => match x with Some _ => true | None => false end) l)).
Proof. unfold livecount. induction l as [|[m|] l IH]; cbn [filter length]; [lia| |exact IH]. destruct (gone (a_hdr m)); cbn [negb length]; lia. Qed.
Lemma slots_len ops : forall s, (length (x_slots (fold_left astep ops s)) <= length (x_slots s) + length ops)%nat.
Proof. induction ops as [|o ops IH]; intros s; cbn [fold_left length]; [lia|]. eapply Nat.le_trans; [apply IH|]. rewrite astep_len. destruct o; lia. Qed.
Lemma filter_seq {A} (f : A -> bool) (l : list A) (g : nat -> bool) a : (forall i x, nth_error l i = Some x -> g (a + i)%nat = f x) -> length (filter g (seq a (length l))) = length (filter f l).
Proof.
  revert a. induction l as [|x l IH]; intros a H; [reflexivity|]. cbn [length seq filter]. specialize (IH (S a)). rewrite <- (Nat.add_0_r a) at 1. rewrite (H 0%nat x eq_refl). destruct (f x); cbn [length]; rewrite IH; auto; intros i y Hy; replace (S a + i)%nat with (a + S i)%nat by lia; apply H; exact Hy.
Qed.
Lemma live_read K j s : rep K j s -> Z.of_nat (length (x_slots s)) < 4294967296 -> live_number j = livecount (x_slots s).
Proof.
  intros HR Hl. unfold live_number, livecount. f_equal. destruct (rep_read _ _ _ HR) as (b & _ & _ & _ & H). destruct HR as (b' & ps & _ & _ & _ & _ & Hidx & (_ & Hf & _) & _). unfold JAM_GetMBSize. rewrite Hidx, index_div. rewrite <- (Forall2_len _ _ _ Hf). rewrite u32_id by (unfold is_u32; lia). rewrite Nat2Z.id.
  apply filter_seq. intros i x Hx. cbn [Nat.add]. rewrite H by lia. unfold aread. rewrite Nat2Z.id, Hx. destruct x; reflexivity.
Qed.
Theorem C38_active crc now base ops : (forall u, is_u32 (crc u)) -> is_u32 base -> Forall op_fine ops -> sizes ops < 4294967295 -> Z.of_nat (length ops) < 4294967296 -> no_undelete (AB base 0 []) ops ->
  exists j b, jrun crc (JAM_CreateMB now base) ops = Some j /\ JAM_ReadMBHeader j = Good b /\ b_active b = live_number j.
Proof.
  intros Hcrc Hb F Hs Hl Hu. destruct (run_rep crc ops Hcrc F 1024 _ _ (create_rep now base Hb) Hs) as (j & E & HR). exists j. destruct (rep_read _ _ _ HR) as (b & H1 & _ & H2 & _). exists b. split; auto. split; auto. pose proof (slots_len ops (AB base 0 [])) as Hsl. cbn [x_slots length] in Hsl.
  rewrite (live_read _ _ _ HR) by lia. rewrite H2, (live_exact ops (AB base 0 []) Hu eq_refl). apply Z.mod_small. split; [unfold livecount; lia|]. pose proof (livecount_le (x_slots (fold_left astep ops (AB base 0 [])))). pose proof (steps_bound ops (AB base 0 [])) as Hb2. cbn [x_slots filter length] in Hb2. unfold sizes in Hs. fold (bytesum ops) in Hs. lia.
Qed.

(** ** Examples *)
Definition xh (attr : Z) : jhdr := JH (lit "JAM" ++ [0]) 1 0 0 0 11 22 0 0 0 1000 2000 3000 0 attr 0 0 0 4294967295 0.
Definition xsubs : list jsub := [SF 2 0 (lit "Alice"); SF 3 0 (lit "Bob"); SF 6 0 (lit "Hello")].
Definition xops : list jop := [Add (xh 0) xsubs (lit "First"); Add (xh 1) [] []; AddEmpty; Add (xh 0) xsubs (lit "Third"); Change 1 (xh 2147483648); Delete 0; Change 2 (xh 0); Delete 9].
Lemma xops_fine : Forall op_fine xops.
Proof.
  assert (H : forall a, is_u32 a -> hdr_fine (xh a)) by (intros a Ha; split; [reflexivity|]; split; [unfold is_u16; cbn; lia|]; split; [unfold is_u16; cbn; lia|]; unfold xh; cbn [h_times h_msgid h_reply h_replyto h_reply1st h_replynext h_written h_received h_processed h_num h_attr h_attr2 h_pw h_cost]; repeat (apply Forall_cons; [first [exact Ha|unfold is_u32; lia]|]); constructor).
  assert (Hs : Forall sub_fine xsubs) by (repeat (apply Forall_cons; [split; [unfold is_u16; cbn; lia|]; split; [unfold is_u16; cbn; lia|]; intros _; vm_compute; lia|]); constructor).
  assert (HA : forall a subs text, is_u32 a -> Forall sub_fine subs -> subsize subs < 2147483648 -> Z.of_nat (length text) < 4294967296 -> op_fine (Add (xh a) subs text)) by (intros; repeat split; auto; apply H; auto).
  assert (HC : forall n a, 0 <= n -> is_u32 a -> op_fine (Change n (xh a))) by (intros; split; auto).
  unfold xops. apply Forall_cons; [apply HA; auto; [unfold is_u32; lia|reflexivity|reflexivity]|]. apply Forall_cons; [apply HA; auto; [unfold is_u32; lia|reflexivity|reflexivity]|]. apply Forall_cons; [exact I|]. apply Forall_cons; [apply HA; auto; [unfold is_u32; lia|reflexivity|reflexivity]|].
  apply Forall_cons; [apply HC; unfold is_u32; lia|]. apply Forall_cons; [cbn [op_fine]; lia|]. apply Forall_cons; [apply HC; unfold is_u32; lia|]. apply Forall_cons; [cbn [op_fine]; lia|]. constructor.
Qed.
Example C37_nonvacuous :
  Forall op_fine xops /\ sizes xops < 4294967295 /\
  option_map (fun j => (read_message j 0, read_message j 1, read_message j 2, read_message j 3, read_message j 4)) (jrun (fun _ => 7) (JAM_CreateMB 12345 5) xops) =
  Some (Some (Bad JAM_NO_MESSAGE), Some (Good (MSG (newhdr 0 (xh 2147483648) [] []) [] [])), Some (Bad JAM_NO_MESSAGE), Some (Good (MSG (newhdr 8 (xh 0) xsubs (lit "Third")) xsubs (lit "Third"))), Some (Bad JAM_IO_ERROR)).
Proof. split; [exact xops_fine|]. split; [reflexivity|]. vm_compute. reflexivity. Qed.
Example C38_nonvacuous : no_undelete (AB 5 0 []) xops /\ option_map (fun j => (live_number j, JAM_ReadMBHeader j)) (jrun (fun _ => 7) (JAM_CreateMB 12345 5) xops) = Some (1, Good (JB (lit "JAM" ++ [0]) 12345 6 1 4294967295 5 (repeat 0 1000))).
Proof. split; [repeat (split; try exact I); intros H; vm_compute in *; congruence|]. vm_compute. reflexivity. Qed.
(** The disk being full while the header of the second message is written. *)
Example C37_failed_nonvacuous : match JAM_AddMessage (fun _ => 7) nocuts (JAM_CreateMB 12345 1) (xh 0) xsubs (lit "First") with
  | Some (0, j) => match JAM_AddMessage (fun _ => 7) (CUT None (Some 40%nat) None None) j (xh 0) xsubs (lit "Second") with
                   | Some (st, j') => st <> 0 /\ j' <> j /\ read_message j' 0 = read_message j 0 /\ read_message j' 0 = Some (Good (MSG (newhdr 1 (xh 0) xsubs (lit "First")) xsubs (lit "First")))
                   | _ => False end
  | _ => False end.
Proof. vm_compute. split; [discriminate|]. split; [discriminate|]. split; reflexivity. Qed.
(** But if the index is written in part, the next message added (with success reported) cannot
    be read: its index record does not begin at a multiple of eight. *)
Definition resultof (x : option (Z * jam)) : jam := match x with Some (_, j) => j | None => JAM [] [] [] [] end.
Definition torn1 := resultof (JAM_AddMessage (fun _ => 7) (CUT None None (Some 3%nat) None) (JAM_CreateMB 12345 1) (xh 0) xsubs (lit "First")).
Definition torn2 := resultof (JAM_AddMessage (fun _ => 7) nocuts torn1 (xh 0) xsubs (lit "Second")).
Theorem C37_torn_refuted : exists j1 j2 st,
  JAM_AddMessage (fun _ => 7) (CUT None None (Some 3%nat) None) (JAM_CreateMB 12345 1) (xh 0) xsubs (lit "First") = Some (st, j1) /\ st <> 0 /\
  JAM_AddMessage (fun _ => 7) nocuts j1 (xh 0) xsubs (lit "Second") = Some (0, j2) /\
  forall n, 0 <= n -> forall m, read_message j2 n <> Some (Good m).
Proof.
  exists torn1, torn2, JAM_IO_ERROR. split; [vm_compute; reflexivity|]. split; [discriminate|]. split; [vm_compute; reflexivity|]. intros n Hn m E.
  assert (Hl : length (j_idx torn2) = 11%nat) by (vm_compute; reflexivity). assert (H0 : match read_message torn2 0 with Some (Good _) => False | _ => True end) by (vm_compute; exact I).
  destruct (Z.eqb_spec n 0) as [->|Hn0]; [rewrite E in H0; exact H0|].
  unfold read_message, JAM_ReadMsgHeader, readindex, freadat in E. rewrite Hl in E. destruct (Z.leb_spec (n * 8 + Z.of_nat 8) (Z.of_nat 11)); [lia|]. discriminate.
Qed.
(** A name of the receiver of more than 100 bytes overflows User_AC in JAM_AddMessage. *)
Theorem C37_longname_refuted : JAM_AddMessage (fun _ => 7) nocuts (JAM_CreateMB 12345 1) (xh 0) [SF JAMSFLD_RECVRNAME 0 (repeat 65 101)] (lit "Text") = None.
Proof. vm_compute. reflexivity. Qed.
(** Taking the mark away with JAM_ChangeMsgHeader is not counted. *)
Theorem C38_undelete_refuted : exists ops j b, Forall op_fine ops /\ jrun (fun _ => 7) (JAM_CreateMB 12345 1) ops = Some j /\ JAM_ReadMBHeader j = Good b /\ b_active b = 0 /\ live_number j = 1.
Proof.
  set (ops := [Add (xh 0) [] []; Change 0 (xh 2147483648); Change 0 (xh 0)]). set (j := match jrun (fun _ => 7) (JAM_CreateMB 12345 1) ops with Some j => j | None => JAM [] [] [] [] end).
  set (b := match JAM_ReadMBHeader j with Good b => b | Bad _ => JB [] 0 0 0 0 0 [] end). exists ops, j, b. split; [|split; [vm_compute; reflexivity|split; [vm_compute; reflexivity|split; vm_compute; reflexivity]]]. clear j b. unfold ops. clear ops.
  pose proof xops_fine as F. rewrite Forall_forall in F. pose proof (F (Add (xh 1) [] []) ltac:(cbn; auto)) as F1. pose proof (F (Change 1 (xh 2147483648)) ltac:(cbn; auto 10)) as F2. pose proof (F (Change 2 (xh 0)) ltac:(cbn; auto 10)) as F3. cbn [op_fine] in *.
  apply Forall_cons; [cbn [op_fine]; tauto|]. apply Forall_cons; [cbn [op_fine]; split; [lia|tauto]|]. apply Forall_cons; [cbn [op_fine]; split; [lia|tauto]|]. constructor.
Qed.

Print Assumptions C37_history.
Print Assumptions C37_added.
Print Assumptions C37_failed.
Print Assumptions C37_torn_refuted.
Print Assumptions C37_longname_refuted.
Print Assumptions C38_active.
Print Assumptions C38_undelete_refuted.
