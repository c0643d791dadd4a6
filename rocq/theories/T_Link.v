(** Linking of replies: C42. *)
From Verif Require Import Base M_Str P_Str M_Mem M_Jam S_Jam P_Jam T_Jam S_JamMaint P_JamMaint T_JamMaint M_Link S_Link P_Link.

Definition nolinks : lmsg := LM NOCRC64 NOCRC64 0 0 0.
Definition lslot (x : option amsg) : lmsg := match x with Some m => links_of (a_hdr m) | None => nolinks end.
Lemma links_rep K j s : rep K j s -> Z.of_nat (length (x_slots s)) < 4294967296 -> links j = map lslot (x_slots s).
Proof.
  intros HR Hl. unfold links. rewrite (rep_size _ _ _ HR Hl), Nat2Z.id. apply nth_ext_err. intros i. rewrite !nth_error_map. destruct (rep_read _ _ _ HR) as (_ & _ & _ & _ & H). destruct (nth_error (x_slots s) i) as [x|] eqn:E.
  - assert (Hi : (i < length (x_slots s))%nat) by (apply nth_error_Some; congruence). rewrite (nth_error_nth' _ 0%nat) by (rewrite seq_length; lia). rewrite seq_nth by lia. cbn [Nat.add option_map]. rewrite H by lia. unfold aread. rewrite Nat2Z.id, E. destruct x; reflexivity.
  - apply nth_error_None in E. rewrite (proj2 (nth_error_None (seq 0 (length (x_slots s))) i)) by (rewrite seq_length; lia). reflexivity.
Qed.
Lemma load_rep K j s : rep K j s -> map (loadmsg j) (seq 0 (length (x_slots s))) = map lslot (x_slots s).
Proof.
  intros HR. apply nth_ext_err. intros i. rewrite !nth_error_map. pose proof (rep_slot _ _ _ (Z.of_nat i) HR ltac:(lia)) as Hs. rewrite Nat2Z.id in Hs. destruct (nth_error (x_slots s) i) as [x|] eqn:E.
  - assert (Hi : (i < length (x_slots s))%nat) by (apply nth_error_Some; congruence). rewrite (nth_error_nth' _ 0%nat) by (rewrite seq_length; lia). rewrite seq_nth by lia. cbn [Nat.add option_map]. f_equal. unfold loadmsg. destruct x as [m|]; [|rewrite Hs; reflexivity]. destruct Hs as (_ & h & -> & Ep). cbn [lslot]. rewrite <- Ep. reflexivity.
  - apply nth_error_None in E. rewrite (proj2 (nth_error_None (seq 0 (length (x_slots s))) i)) by (rewrite seq_length; lia). reflexivity.
Qed.
Lemma firstfield_field t subs : firstfield t subs = field t subs.
Proof. unfold firstfield. induction subs as [|x subs IH]; cbn [find field]; [reflexivity|]. destruct (sf_lo x =? t); auto. Qed.
Definition sametext (a b : amsg) : bool := match firstfield JAMSFLD_MSGID (a_subs a), firstfield JAMSFLD_REPLYID (a_subs b) with Some x, Some y => (length y =? length x)%nat && streq (cstr y) (cstr x) | _, _ => false end.
Definition cmpb (quick : bool) (l : list (option amsg)) (i d : nat) : bool :=
  match nth_error l i, nth_error l d with
  | Some (Some a), Some (Some b) => (h_msgid (a_hdr a) =? h_reply (a_hdr b)) && (quick || sametext a b)
  | Some None, Some None => quick
  | _, _ => false
  end.
Lemma msg_u32 m : msg_ok m -> is_u32 (h_msgid (a_hdr m)) /\ is_u32 (h_reply (a_hdr m)) /\ lmok (links_of (a_hdr m)).
Proof. intros ((_ & _ & _ & F) & _). repeat match goal with H : Forall _ (_ :: _) |- _ => inversion_clear H end. split; auto. split; auto. split; auto. Qed.
Lemma cmp_rep K j s quick i d ms : rep K j s -> (i < length (x_slots s))%nat -> (d < length (x_slots s))%nat -> sameids (map lslot (x_slots s)) ms ->
  jam_CompareMsgIdReply quick j ms (Z.of_nat i) (Z.of_nat d) = Some (cmpb quick (x_slots s) i d).
Proof.
  intros HR Hi Hd [_ Hs]. unfold jam_CompareMsgIdReply, cmpb. rewrite !Nat2Z.id. destruct (nth_error (x_slots s) i) as [x|] eqn:Ei; [|apply nth_error_None in Ei; lia]. destruct (nth_error (x_slots s) d) as [y|] eqn:Ed; [|apply nth_error_None in Ed; lia].
  destruct (Hs i (lslot x)) as (a & Ea & Ia & _); [rewrite nth_error_map, Ei; reflexivity|]. destruct (Hs d (lslot y)) as (b & Eb & _ & Ib); [rewrite nth_error_map, Ed; reflexivity|]. rewrite Ea, Eb, Ia, Ib.
  assert (NB : forall n, (nth_error (x_slots s) n = Some None) -> JAM_ReadMsgHeader j (Z.of_nat n) = Some (Bad JAM_NO_MESSAGE)). { intros n En. destruct (rep_read _ _ _ HR) as (_ & _ & _ & _ & H). specialize (H (Z.of_nat n) ltac:(lia)). unfold aread in H. rewrite Nat2Z.id, En in H. unfold read_message in H. destruct (JAM_ReadMsgHeader j (Z.of_nat n)) as [[[h subs]|]|]; try congruence. destruct (JAM_ReadMsgText _ _ _) eqn:Et; [congruence|]. unfold JAM_ReadMsgText in Et. destruct (h_txtlen h =? 0); [congruence|]. unfold JAM_IO_ERROR, JAM_NO_MESSAGE in *. destruct (freadat _ _ _); congruence. }
  pose proof (rep_slot _ _ _ (Z.of_nat i) HR ltac:(lia)) as Si. pose proof (rep_slot _ _ _ (Z.of_nat d) HR ltac:(lia)) as Sd. rewrite Nat2Z.id in Si, Sd. rewrite Ei in Si. rewrite Ed in Sd.
  destruct x as [m|], y as [m'|]; cbn [lslot links_of nolinks l_id l_rep].
  - destruct (h_msgid (a_hdr m) =? h_reply (a_hdr m')); cbn [negb andb]; auto. destruct quick; cbn [orb]; auto.
    destruct (rep_full _ _ _ (Z.of_nat i) m HR) as (h & E1 & _); [lia|rewrite Nat2Z.id; auto|]. destruct (rep_full _ _ _ (Z.of_nat d) m' HR) as (h' & E2 & _); [lia|rewrite Nat2Z.id; auto|]. rewrite E1. cbn [obind]. rewrite E2. cbn [obind]. unfold sametext. destruct (firstfield JAMSFLD_MSGID (a_subs m)), (firstfield JAMSFLD_REPLYID (a_subs m')); reflexivity.
  - destruct Si as (Si & _). apply msg_u32 in Si as ((? & ?) & _). unfold NOCRC64. destruct (Z.eqb_spec (h_msgid (a_hdr m)) 18446744073709551615); [lia|]. reflexivity.
  - destruct Sd as (Sd & _). apply msg_u32 in Sd as (_ & (? & ?) & _). unfold NOCRC64. destruct (Z.eqb_spec 18446744073709551615 (h_reply (a_hdr m'))); [lia|]. reflexivity.
  - rewrite Z.eqb_refl. cbn [negb]. destruct quick; auto. rewrite NB by auto. reflexivity.
Qed.
Lemma rep_ok K j s : rep K j s -> Forall (fun x => match x with Some m => msg_ok m | None => True end) (x_slots s).
Proof. intros HR. apply Forall_forall. intros x Hx. apply In_nth_error in Hx as (i & Ei). pose proof (rep_slot _ _ _ (Z.of_nat i) HR ltac:(lia)) as Si. rewrite Nat2Z.id, Ei in Si. destruct x; auto. apply Si. Qed.

(** writing the links *)
Definition relink (x : option amsg) (n : lmsg) : option amsg := match x with Some m => Some (relinked m n) | None => None end.
Fixpoint relinks (l : list (option amsg)) (new : list lmsg) : list (option amsg) := match l, new with x :: l, n :: new => relink x n :: relinks l new | _, _ => [] end.
Lemma relinked_same m n : l_to n = h_replyto (a_hdr m) -> l_first n = h_reply1st (a_hdr m) -> l_next n = h_replynext (a_hdr m) -> relinked m n = m.
Proof. intros H1 H2 H3. unfold relinked. rewrite H1, H2, H3. destruct m as [[] ? ?]. reflexivity. Qed.
Lemma writelinks_rep K l : forall j num act pre new, rep K j (AB num act (pre ++ l)) -> length new = length l -> Forall lmok new -> rep K (writelinks j (length pre) (map lslot l) new) (AB num act (pre ++ relinks l new)).
Proof.
  induction l as [|x l IH]; intros j num act pre new HR Hlen Hok; [destruct new; [exact HR|discriminate]|]. destruct new as [|n new]; [discriminate|]. inversion_clear Hok as [|? ? On Onew]. cbn [map writelinks relinks]. cbn [length] in Hlen.
  assert (skip : relink x n = x -> rep K (writelinks j (S (length pre)) (map lslot l) new) (AB num act (pre ++ relink x n :: relinks l new))). { intros ->. rewrite (app_one pre x). replace (S (length pre)) with (length (pre ++ [x])) by (rewrite app_length; cbn [length]; lia). apply IH; auto; try lia. rewrite <- app_one. exact HR. }
  destruct ((_ && _) && _) eqn:Ec.
  - apply andb_prop in Ec as [Ec E3]. apply andb_prop in Ec as [E1 E2]. apply Z.eqb_eq in E1, E2, E3. apply skip. destruct x as [m|]; [|reflexivity]. cbn [relink]. f_equal. apply relinked_same; auto.
  - pose proof (rep_slot _ _ _ (Z.of_nat (length pre)) HR ltac:(lia)) as Hs. cbn [x_slots] in Hs. rewrite Nat2Z.id, nth_mid in Hs. destruct x as [m|]; [|rewrite Hs; apply skip; reflexivity]. destruct Hs as (A & h & Eh & Ep). rewrite Eh.
    destruct On as (O1 & O2 & O3).
    assert (Fo : op_fine (Change (Z.of_nat (length pre)) (with_links h n))). { split; [lia|]. destruct A as ((A1 & A2 & A3 & A4) & _). rewrite <- Ep in A1, A2, A3, A4. split; auto. split; auto. split; auto. cbn [with_links h_times h_msgid h_reply h_replyto h_reply1st h_replynext h_written h_received h_processed h_num h_attr h_attr2 h_pw h_cost]. rewrite !u32_id by auto.
      cbn [placeless with_layout h_times h_msgid h_reply h_replyto h_reply1st h_replynext h_written h_received h_processed h_num h_attr h_attr2 h_pw h_cost] in A4. repeat match goal with H : Forall _ (_ :: _) |- _ => inversion_clear H end. repeat (apply Forall_cons; [auto|]). constructor. }
    destruct (change_step _ _ _ _ _ HR Fo) as [H|(c & E & _)]; [|congruence]. rewrite Eh in H.
    replace (with_layout (with_links h n) (h_sublen h) (h_txtoff h) (h_txtlen h)) with (with_links h n) in H by (destruct h; reflexivity).
    assert (Es : astep (AB num act (pre ++ Some m :: l)) (Change (Z.of_nat (length pre)) (with_links h n)) = AB num act (pre ++ Some (relinked m n) :: l)).
    { cbn [astep]. unfold aread. cbn [x_slots x_num x_active]. rewrite Nat2Z.id, nth_mid. assert (Eg : gone (with_links h n) = gone (a_hdr m)) by (rewrite <- Ep; reflexivity). rewrite Eg, andb_negb_r. rewrite setslot_split by apply Nat2Z.id. f_equal. f_equal. f_equal. f_equal. unfold relinked. rewrite <- Ep. unfold with_links. rewrite !u32_id by auto. destruct h. reflexivity. }
    rewrite Es in H. cbn [relink]. rewrite (app_one pre (Some (relinked m n))). replace (S (length pre)) with (length (pre ++ [Some (relinked m n)])) by (rewrite app_length; cbn [length]; lia). apply IH; auto; try lia. rewrite <- app_one. exact H.
Qed.
Lemma relinks_nth l : forall new i, length new = length l -> nth_error (relinks l new) i = match nth_error l i, nth_error new i with Some x, Some n => Some (relink x n) | _, _ => None end.
Proof. induction l as [|x l IH]; intros [|n new] i H; try discriminate; destruct i; cbn [relinks nth_error]; auto. Qed.
Lemma relinks_len l : forall new, length new = length l -> length (relinks l new) = length l.
Proof. induction l as [|x l IH]; intros [|n new] H; try discriminate; cbn [relinks length]; auto. Qed.
Lemma cand_in msgs old n i d : In (i, d) (candidates msgs old n) -> (i < n)%nat /\ (d < n)%nat /\ (old <= i \/ old <= d)%nat /\ ((exists m, nth_error msgs d = Some m /\ l_rep m <> NOCRC64) \/ (exists m, nth_error msgs i = Some m /\ l_id m <> NOCRC64)).
Proof.
  unfold candidates. intros H. apply in_flat_map in H as (c & Hc & H). apply in_seq in Hc. destruct (nth_error msgs c) as [m|] eqn:E; [|destruct H]. apply in_app_or in H as [H|H].
  - destruct (Z.eqb_spec (l_rep m) NOCRC64); [destruct H|]. apply in_map_iff in H as (x & Hx & Hs). apply in_seq in Hs. assert (x = i) by congruence. assert (c = d) by congruence. subst. split; [lia|]. split; [lia|]. split; [lia|]. left. eauto.
  - destruct (Z.eqb_spec (l_id m) NOCRC64); [destruct H|]. apply in_map_iff in H as (x & Hx & Hs). apply in_seq in Hs. assert (x = d) by congruence. assert (c = i) by congruence. subst. split; [lia|]. split; [lia|]. split; [lia|]. right. eauto.
Qed.
Lemma in_cand msgs old n i d a b : (i < n)%nat -> (d < n)%nat -> (old <= i \/ old <= d)%nat -> nth_error msgs i = Some a -> nth_error msgs d = Some b -> l_id a <> NOCRC64 -> l_rep b <> NOCRC64 -> In (i, d) (candidates msgs old n).
Proof.
  intros Hi Hd Ho Ea Eb Na Nb. unfold candidates. apply in_flat_map. destruct Ho as [Ho|Ho].
  - exists i. split; [apply in_seq; lia|]. rewrite Ea. apply in_or_app. right. destruct (Z.eqb_spec (l_id a) NOCRC64); [contradiction|]. apply in_map_iff. exists d. split; auto. apply in_seq. lia.
  - exists d. split; [apply in_seq; lia|]. rewrite Eb. apply in_or_app. left. destruct (Z.eqb_spec (l_rep b) NOCRC64); [contradiction|]. apply in_map_iff. exists i. split; auto. apply in_seq. lia.
Qed.
Lemma cmpb_refers quick l i d a b : nth_error l i = Some (Some a) -> nth_error l d = Some (Some b) -> cmpb quick l i d = true <-> refers quick a b.
Proof.
  intros Ei Ed. unfold cmpb, refers. rewrite Ei, Ed. rewrite andb_true_iff, orb_true_iff, Z.eqb_eq. apply and_iff_compat_l. apply or_iff_compat_l. unfold sametext. rewrite !firstfield_field. change JAMSFLD_MSGID with 4. change JAMSFLD_REPLYID with 5. destruct (field 4 (a_subs a)) as [x|], (field 5 (a_subs b)) as [y|]; split; try discriminate; try (intros (x' & y' & E1 & E2 & _); discriminate).
  - intros H. apply andb_prop in H as [H1 H2]. apply Nat.eqb_eq in H1. apply streq_eq in H2. exists x, y. auto.
  - intros (x' & y' & E1 & E2 & E3 & E4). assert (x' = x) by congruence. assert (y' = y) by congruence. subst. rewrite E3, E4, Nat.eqb_refl. cbn [andb]. apply streq_refl.
Qed.

(** C42: linking a base. [oldnum] is the number of messages there were before the new ones. *)
Theorem C42_link crc now base ops quick oldnum : (forall u, is_u32 (crc u)) -> 1 <= base < 4294967296 -> base + Z.of_nat (length ops) <= 4294967296 -> Forall op_fine ops -> sizes ops < 4294967295 -> Z.of_nat (length ops) <= 2147483648 -> 0 <= oldnum ->
  exists j j', jrun crc (JAM_CreateMB now base) ops = Some j /\ jam_linkmb quick base oldnum j = Some j' /\
  (* nothing else is changed *)
  (forall n, read_message j' (Z.of_nat n) = match read_message j (Z.of_nat n), nth_error (links j') n with Some (Good m), Some x => Some (Good (relinked m x)) | r, _ => r end) /\
  (* a reply that was linked stays linked to the same message *)
  (forall d v, replyto (links j) d = Some v -> v <> 0 -> replyto (links j') d = Some v) /\
  (* a reply is linked to a message it refers to *)
  (forall d v, replyto (links j) d = Some 0 -> replyto (links j') d = Some v -> v <> 0 ->
     exists i parent reply, v = base + Z.of_nat i /\ (oldnum <= Z.of_nat i \/ oldnum <= Z.of_nat d) /\ read_message j (Z.of_nat i) = Some (Good parent) /\ read_message j (Z.of_nat d) = Some (Good reply) /\ refers quick parent reply) /\
  (* each reply is linked if it or the message it refers to is new *)
  (forall i d parent reply, (oldnum <= Z.of_nat i \/ oldnum <= Z.of_nat d) -> read_message j (Z.of_nat i) = Some (Good parent) -> read_message j (Z.of_nat d) = Some (Good reply) -> refers quick parent reply ->
     exists v, replyto (links j') d = Some v /\ v <> 0) /\
  (* the chains stay chains of all the replies; new ones come to their ends *)
  (wellformed (links j) base -> (forall i, (replies (links j') base i <= 1002)%nat) -> wellformed (links j') base /\
     forall i m c, nth_error (links j) i = Some m -> present m -> chain (links j) base i c -> exists e, chain (links j') base i (c ++ e)).
Proof.
  intros Hcrc Hb1 Hbl Hops Hsz Hlen Hold. destruct (run_rep crc ops Hcrc Hops 1024 (JAM_CreateMB now base) (AB base 0 []) (create_rep now base ltac:(unfold is_u32; lia)) Hsz) as (j & Ej & HR). set (s := fold_left astep ops (AB base 0 [])) in *.
  assert (Hls : (length (x_slots s) <= length ops)%nat) by (exact (slots_len ops (AB base 0 []))). set (l := x_slots s) in *. set (n := length l) in *. set (old := map lslot l).
  assert (Hsize : JAM_GetMBSize j = Z.of_nat n) by (apply (rep_size _ _ _ HR); fold l; fold n; lia). pose proof (rep_ok _ _ _ HR) as Hmok. fold l in Hmok.
  assert (Lold : length old = n) by apply map_length.
  assert (Hin : forall x i, nth_error l i = Some x -> nth_error old i = Some (lslot x)) by (intros x i E; unfold old; rewrite nth_error_map, E; reflexivity).
  assert (Hpres : forall m i, nth_error l i = Some (Some m) -> l_id (links_of (a_hdr m)) <> NOCRC64 /\ l_rep (links_of (a_hdr m)) <> NOCRC64). { intros m i E. apply nth_error_In in E. rewrite Forall_forall in Hmok. specialize (Hmok _ E). cbn in Hmok. apply msg_u32 in Hmok as ((? & ?) & (? & ?) & _). cbn [links_of l_id l_rep]. unfold NOCRC64. lia. }
  assert (Hcand : forall i d, In (i, d) (candidates old (Z.to_nat oldnum) n) -> cmpb quick l i d = true -> exists a b, nth_error l i = Some (Some a) /\ nth_error l d = Some (Some b)).
  { intros i d Hc Hf. destruct (cand_in _ _ _ _ _ Hc) as (Hi & Hd & _ & Hx). unfold cmpb in Hf. destruct (nth_error l i) as [[a|]|] eqn:Ei; [| |discriminate]; (destruct (nth_error l d) as [[b|]|] eqn:Ed; try discriminate); [eauto|]. exfalso. pose proof (Hin _ _ Ei) as Oi. pose proof (Hin _ _ Ed) as Od. destruct Hx as [(m & Em & Hm)|(m & Em & Hm)]; apply Hm; (assert (m = lslot None) by congruence); subst m; reflexivity. }
  destruct (linkall_any quick j base (cmpb quick l) n ltac:(lia) ltac:(lia) ltac:(lia) (candidates old (Z.to_nat oldnum) n) old Lold) as (new & En & Sid & Ok & T1 & T2 & T3 & W).
  { unfold old. apply Forall_map. eapply Forall_impl; [|exact Hmok]. intros [m|] H; [apply msg_u32 in H; apply H|]. split; [|split]; unfold is_u32; cbn; lia. }
  { intros i d Hc. apply cand_in in Hc. intuition. }
  { intros i d Hc ms Hms. apply cand_in in Hc as (Hi & Hd & _). apply (cmp_rep _ _ _ quick i d ms HR); auto. }
  { intros i d Hc Hf. destruct (Hcand i d Hc Hf) as (a & b & Ea & Eb). split; [exists (lslot (Some a)); split; [apply Hin; exact Ea|apply (Hpres _ _ Ea)]|exists (lslot (Some b)); split; [apply Hin; exact Eb|apply (Hpres _ _ Eb)]]. }
  assert (Lnew : length new = n) by (destruct Sid; congruence).
  exists j, (writelinks j 0 old new). split; auto. split. { unfold jam_linkmb. rewrite Hsize, Nat2Z.id. cbv zeta. pose proof (load_rep _ _ _ HR) as EL. fold l in EL. fold n in EL. fold old in EL. rewrite EL, En. reflexivity. }
  set (j' := writelinks j 0 old new).
  assert (HR' : rep (1024 + fold_right (fun o n => opsize o + n) 0 ops) j' (AB (x_num s) (x_active s) (relinks l new))). { apply (writelinks_rep _ l j (x_num s) (x_active s) [] new); auto. }
  assert (Lj : links j = old) by (unfold old; rewrite (links_rep _ _ _ HR) by (fold l; fold n; lia); reflexivity). assert (Lj' : links j' = map lslot (relinks l new)) by (rewrite (links_rep _ _ _ HR') by (cbn [x_slots]; rewrite relinks_len by auto; fold n; lia); reflexivity).
  (* the links of the new base *)
  assert (Nx : forall i, nth_error (links j') i = match nth_error l i, nth_error new i with Some (Some m), Some x => Some x | Some None, Some _ => Some nolinks | _, _ => None end).
  { intros i. rewrite Lj', nth_error_map, relinks_nth by auto. destruct (nth_error l i) as [[m|]|] eqn:Ei; [| |reflexivity]; (destruct (nth_error new i) as [x|] eqn:Ex; [|reflexivity]); cbn [option_map relink lslot]; auto. destruct Sid as [_ Sid]. destruct (Sid i _ (Hin _ _ Ei)) as (x' & Ex' & I1 & I2). assert (x' = x) by congruence. subst x'. cbn [lslot links_of l_id l_rep] in I1, I2. f_equal. unfold relinked. cbn [a_hdr links_of h_msgid h_reply h_replyto h_reply1st h_replynext]. rewrite <- I1, <- I2. destruct x; reflexivity. }
  assert (Nt : forall i, replyto (links j') i = replyto new i).
  { intros i. unfold replyto. rewrite Nx. destruct (nth_error l i) as [[m|]|] eqn:Ei; destruct (nth_error new i) as [x|] eqn:Ex; cbn [option_map]; auto.
    - cbn [nolinks l_to]. destruct (Z.eq_dec (l_to x) 0) as [E0|E0]; [congruence|]. exfalso. destruct (T2 i (l_to x)) as (k & K1 & K2 & _); auto; [unfold replyto; rewrite (Hin _ _ Ei); reflexivity|unfold replyto; rewrite Ex; reflexivity|]. destruct (Hcand _ _ K1 K2) as (a & b & _ & Eb). congruence.
    - apply nth_error_None in Ei. assert (nth_error new i <> None) as Hx by congruence. apply nth_error_Some in Hx. fold n in Ei. lia. }
  assert (Rd : forall i, read_message j (Z.of_nat i) = Some (aread s (Z.of_nat i))) by (intros i; destruct (rep_read _ _ _ HR) as (_ & _ & _ & _ & H); apply H; lia).
  assert (Rs : forall i m, read_message j (Z.of_nat i) = Some (Good m) -> nth_error l i = Some (Some m)). { intros i m H. rewrite Rd in H. unfold aread in H. rewrite Nat2Z.id in H. fold l in H. destruct (nth_error l i) as [[x|]|]; congruence. }
  split; [|split; [|split; [|split]]].
  - intros i. rewrite Rd. destruct (rep_read _ _ _ HR') as (_ & _ & _ & _ & H). rewrite H by lia. clear H. unfold aread. rewrite Nat2Z.id, Nx. cbn [x_slots]. fold l. rewrite relinks_nth by auto. destruct (nth_error l i) as [[m|]|] eqn:Ei; destruct (nth_error new i) as [x|] eqn:Ex; cbn [relink]; auto; exfalso; apply nth_error_None in Ex; assert (Hx : nth_error l i <> None) by congruence; apply nth_error_Some in Hx; fold n in Hx; lia.
  - intros d v. rewrite Lj, Nt. apply T1.
  - intros d v. rewrite Lj, Nt. intros H1 H2 Hv. destruct (T2 d v H1 H2 Hv) as (i & K1 & K2 & K3). destruct (Hcand _ _ K1 K2) as (a & b & Ea & Eb). exists i, a, b. split; auto. apply cand_in in K1 as (_ & _ & K1 & _). split; [lia|]. rewrite !Rd. unfold aread. rewrite !Nat2Z.id. fold l. rewrite Ea, Eb. split; auto. split; auto. eapply cmpb_refers; eauto.
  - intros i d a b Ho Ra Rb Hr. apply Rs in Ra, Rb. pose proof (proj2 (cmpb_refers quick l i d a b Ra Rb) Hr) as Hf. assert (Hc : In (i, d) (candidates old (Z.to_nat oldnum) n)). { eapply in_cand; [| | |apply (Hin _ _ Ra)|apply (Hin _ _ Rb)|apply (Hpres _ _ Ra)|apply (Hpres _ _ Rb)]; try (apply nth_error_Some; congruence). lia. }
    pose proof (T3 _ _ Hc Hf) as H. rewrite Nt. unfold replyto in *. destruct (nth_error new d) as [x|] eqn:Ex; [exists (l_to x); split; [reflexivity|]; intros E0; apply H; cbn [option_map]; congruence|]. exfalso. apply nth_error_None in Ex. assert (Hx : nth_error l d <> None) by congruence. apply nth_error_Some in Hx. fold n in Hx. lia.
  - rewrite Lj. intros Wf Hrep. assert (Er : forall i, replies (links j') base i = replies new base i). { intros i. unfold replies. assert (El : length (links j') = length new) by (rewrite Lj', map_length, relinks_len; auto).
      rewrite <- (filter_seq (fun m => l_to m =? base + Z.of_nat i) (links j') (fun k => match replyto (links j') k with Some v => v =? base + Z.of_nat i | None => false end) 0) by (intros k x Hx; cbn [Nat.add]; unfold replyto; rewrite Hx; reflexivity).
      rewrite <- (filter_seq (fun m => l_to m =? base + Z.of_nat i) new (fun k => match replyto (links j') k with Some v => v =? base + Z.of_nat i | None => false end) 0) by (intros k x Hx; cbn [Nat.add]; rewrite Nt; unfold replyto; rewrite Hx; reflexivity). rewrite El. reflexivity. }
    destruct (W Wf) as (Wf' & Fr & Ch); [intros i; rewrite <- Er; apply Hrep|].
    assert (El : links j' = new). { apply nth_ext_err. intros i. rewrite Nx. destruct (nth_error l i) as [[m|]|] eqn:Ei; destruct (nth_error new i) as [x|] eqn:Ex; auto; [|exfalso; apply nth_error_None in Ei; assert (Hx : nth_error new i <> None) by congruence; apply nth_error_Some in Hx; fold n in Ei; lia].
      rewrite <- Ex. symmetry. apply Fr; [apply (Hin _ _ Ei)| |reflexivity]. intros H. apply H. reflexivity. }
    rewrite El. split; auto.
Qed.
Print Assumptions C42_link.

(** ** Examples *)
(** following a chain *)
Fixpoint chase (fuel : nat) (msgs : list lmsg) (base start : Z) : option (list nat) :=
  if start =? 0 then Some [] else
  match fuel with
  | O => None
  | S fuel => if start <? base then None else let d := Z.to_nat (start - base) in
    match nth_error msgs d with None => None | Some m => match chase fuel msgs base (l_next m) with None => None | Some r => Some (d :: r) end end
  end.
Lemma chase_follows fuel msgs base : forall start c, chase fuel msgs base start = Some c -> follows msgs base start c.
Proof.
  induction fuel as [|fuel IH]; intros start c; cbn [chase]; (destruct (Z.eqb_spec start 0) as [->|]; [intros E; assert (c = []) by congruence; subst c; reflexivity|]); [discriminate|]. destruct (Z.ltb_spec start base); [discriminate|]. destruct (nth_error msgs _) as [m|] eqn:Em; [|discriminate]. destruct (chase fuel msgs base (l_next m)) as [r|] eqn:Er; [|discriminate].
  intros E. assert (c = Z.to_nat (start - base) :: r) by congruence. subst c. cbn [follows]. split; [lia|]. eauto.
Qed.
Fixpoint nodupb (c : list nat) : bool := match c with [] => true | d :: r => negb (existsb (Nat.eqb d) r) && nodupb r end.
Definition wfb (msgs : list lmsg) (base : Z) : bool :=
  let n := length msgs in
  forallb (fun i => match nth_error msgs i with None => false | Some m => (l_id m =? NOCRC64) || match chase n msgs base (l_first m) with
    | None => false
    | Some c => nodupb c && forallb (fun d => match replyto msgs d with Some v => Bool.eqb (existsb (Nat.eqb d) c) (v =? base + Z.of_nat i) | None => false end) (seq 0 n)
    end end) (seq 0 n) && forallb (fun m => negb (l_to m =? 0) || (l_next m =? 0)) msgs.
Lemma existsb_in d c : existsb (Nat.eqb d) c = true <-> In d c.
Proof. rewrite existsb_exists. split; [intros (x & Hx & E); apply Nat.eqb_eq in E; subst; auto|]. intros H. exists d. split; auto. apply Nat.eqb_refl. Qed.
Lemma nodupb_sound c : nodupb c = true -> NoDup c.
Proof. induction c as [|d c IH]; intros H; constructor; cbn [nodupb] in H; apply andb_prop in H as [H1 H2]; auto. intros Hi. apply existsb_in in Hi. rewrite Hi in H1. discriminate. Qed.
Lemma wfb_sound msgs base : wfb msgs base = true -> wellformed msgs base.
Proof.
  unfold wfb. intros H. apply andb_prop in H as [H1 H2]. rewrite forallb_forall in H1, H2. split.
  - intros i m Em Pm. specialize (H1 i). assert (Hi : (i < length msgs)%nat) by (apply nth_error_Some; congruence). specialize (H1 ltac:(apply in_seq; lia)). rewrite Em in H1. destruct (Z.eqb_spec (l_id m) NOCRC64); [contradiction|]. cbn [orb] in H1. destruct (chase _ msgs base (l_first m)) as [c|] eqn:Ec; [|discriminate]. apply andb_prop in H1 as [N H1]. rewrite forallb_forall in H1. apply chase_follows in Ec. exists c. split; [exists m; auto|]. split; [apply nodupb_sound; auto|].
    intros d. destruct (Nat.lt_ge_cases d (length msgs)) as [Hd|Hd].
    + specialize (H1 d ltac:(apply in_seq; lia)). destruct (replyto msgs d) as [v|]; [|discriminate]. apply Bool.eqb_prop in H1. rewrite <- existsb_in, H1, Z.eqb_eq. split; congruence.
    + split; [intros Hx; pose proof (follows_len _ _ _ _ Ec) as F; rewrite Forall_forall in F; specialize (F d Hx); lia|]. unfold replyto. rewrite (proj2 (nth_error_None msgs d)) by lia. discriminate.
  - intros d m Em Et. apply nth_error_In in Em. specialize (H2 m Em). rewrite Et in H2. cbn [Z.eqb negb orb] in H2. apply Z.eqb_eq in H2. auto.
Qed.
(** A message with [id] as the checksum of its MSGID and [rep] as that of its REPLY. *)
Definition lh (id rep to first next : Z) : jhdr := JH (lit "JAM" ++ [0]) 1 0 0 0 id rep to first next 1000 2000 3000 0 0 0 0 0 4294967295 0.
Definition ids (a b : string) : list jsub := [SF 4 0 (lit a); SF 5 0 (lit b)].
(** The first has one reply already; then there are two more, a reply to a reply, one that has
    the same checksum only, and a hole. *)
Definition lops : list jop := [Add (lh 11 4294967295 0 8 0) (ids "2:1/1 a" "") (lit "First"); Add (lh 12 11 7 0 0) (ids "2:1/1 b" "2:1/1 a") []; AddEmpty; Add (lh 13 11 0 0 0) (ids "2:1/1 c" "2:1/1 a") []; Add (lh 14 12 0 0 0) (ids "2:1/1 d" "2:1/1 b") []; Add (lh 15 11 0 0 0) (ids "2:1/1 e" "other") []; Add (lh 16 11 0 0 0) (ids "2:1/1 f" "2:1/1 a") []].
Definition lbase : jam := match jrun (fun _ => 7) (JAM_CreateMB 12345 7) lops with Some j => j | None => JAM [] [] [] [] end.
Definition llinked : jam := match jam_linkmb false 7 2 lbase with Some j => j | None => JAM [] [] [] [] end.
Lemma lops_fine : Forall op_fine lops.
Proof. repeat (apply Forall_cons; [first [exact I|split; [split; [reflexivity|]; split; [unfold is_u16; cbn; lia|]; split; [unfold is_u16; cbn; lia|]; cbn; repeat (apply Forall_cons; [unfold is_u32; lia|]); constructor|]; split; [repeat (apply Forall_cons; [split; [unfold is_u16; cbn; lia|]; split; [unfold is_u16; cbn; lia|]; intros H; discriminate|]); constructor|split; vm_compute; reflexivity]]|]). constructor. Qed.
Example C42_nonvacuous : Forall op_fine lops /\ sizes lops < 4294967295 /\ jrun (fun _ => 7) (JAM_CreateMB 12345 7) lops = Some lbase /\ jam_linkmb false 7 2 lbase = Some llinked /\ wellformed (links lbase) 7 /\
  forallb (fun i => (replies (links llinked) 7 i <=? 1002)%nat) (seq 0 7) = true /\ map (replyto (links llinked)) (seq 0 7) = map Some [0; 7; 0; 7; 8; 0; 7] /\ chain (links llinked) 7 0 [1; 3; 6]%nat /\ chain (links llinked) 7 1 [4]%nat.
Proof.
  split; [exact lops_fine|]. split; [reflexivity|]. split; [vm_compute; reflexivity|]. split; [vm_compute; reflexivity|]. split; [apply wfb_sound; vm_compute; reflexivity|]. split; [vm_compute; reflexivity|]. split; [vm_compute; reflexivity|].
  split; eexists; (split; [vm_compute; reflexivity|apply (chase_follows 9); vm_compute; reflexivity]).
Qed.
(** A chain has no more than 1002 replies: a further one says what it replies to, but is not
    found from there. *)
Lemma walk_long msgs base dest : 0 < base -> Z.of_nat (length msgs) <= 2147483648 -> (dest < length msgs)%nat -> forall fuel c d, follows msgs base (base + Z.of_nat d) (d :: c) -> ~ In dest c -> (fuel < length c)%nat ->
  walk fuel msgs (Z.of_nat (length msgs)) base (Z.of_nat d) (Z.of_nat dest) = Some None.
Proof.
  intros Hb Hl Hdl. induction fuel as [|fuel IH]; intros [|e c] d F Hd Hf; cbn [length] in Hf; try lia; cbn [follows] in F; destruct F as (_ & m & Em & En & F); cbn [walk]; rewrite Nat2Z.id, Em, En; (destruct (Z.eqb_spec (base + Z.of_nat e) 0); [lia|]); auto.
  destruct F as (m' & Em' & F). assert (He : (e < length msgs)%nat) by (apply nth_error_Some; congruence). replace (base + Z.of_nat e - base) with (Z.of_nat e) by lia. rewrite s32_small, u32_id by (unfold is_u32; lia). destruct (Z.eqb_spec (Z.of_nat e) (Z.of_nat dest)) as [E|]; [reflexivity|]. destruct (Z.ltb_spec (Z.of_nat e) 0); [lia|]. destruct (Z.leb_spec (Z.of_nat (length msgs)) (Z.of_nat e)); [lia|]. cbn [orb].
  apply (IH c); [cbn [follows]; split; eauto|intros H'; apply Hd; right; auto|lia].
Qed.
Definition many (n : nat) : list lmsg := LM 1 2 0 11 0 :: map (fun k => LM 2 1 10 0 (if (S k =? n)%nat then 0 else 12 + Z.of_nat k)) (seq 0 n) ++ [LM 2 1 0 0 0].
Lemma many_len n : length (many n) = S (S n).
Proof. unfold many. cbn [length]. rewrite app_length, map_length, seq_length. cbn [length]. lia. Qed.
Lemma many_nth n k : (k < n)%nat -> nth_error (many n) (S k) = Some (LM 2 1 10 0 (if (S k =? n)%nat then 0 else 12 + Z.of_nat k)).
Proof. intros H. unfold many. cbn [nth_error]. rewrite nth_error_app1 by (rewrite map_length, seq_length; lia). rewrite nth_error_map, (nth_error_nth' _ 0%nat) by (rewrite seq_length; lia). rewrite seq_nth by lia. reflexivity. Qed.
Lemma many_last n : nth_error (many n) (S n) = Some (LM 2 1 0 0 0).
Proof. unfold many. cbn [nth_error]. rewrite nth_error_app2 by (rewrite map_length, seq_length; lia). rewrite map_length, seq_length, Nat.sub_diag. reflexivity. Qed.
Lemma many_follows msgs n : (forall k, (k < n)%nat -> exists m, nth_error msgs (S k) = Some m /\ l_next m = if (S k =? n)%nat then 0 else 12 + Z.of_nat k) -> forall r k, (k + r = n)%nat -> (0 < r)%nat -> follows msgs 10 (11 + Z.of_nat k) (seq (S k) r).
Proof.
  intros H. induction r as [|r IH]; intros k Hk Hr; [lia|]. cbn [seq follows]. split; [lia|]. destruct (H k ltac:(lia)) as (m & Em & En). exists m. split; auto. rewrite En. destruct (Nat.eqb_spec (S k) n) as [E|E]; [replace r with 0%nat by lia; reflexivity|]. replace (12 + Z.of_nat k) with (11 + Z.of_nat (S k)) by lia. apply IH; lia.
Qed.
Lemma many_wf n : (0 < n)%nat -> wellformed (many n) 10.
Proof.
  intros Hn. assert (Ft : forall d m, nth_error (many n) d = Some m -> (d = 0%nat /\ m = LM 1 2 0 11 0) \/ ((1 <= d <= n)%nat /\ m = LM 2 1 10 0 (if (d =? n)%nat then 0 else 11 + Z.of_nat d)) \/ (d = S n /\ m = LM 2 1 0 0 0)).
  { intros [|k] m E; [left; split; auto; cbn in E; congruence|]. right. destruct (Nat.lt_trichotomy k n) as [H|[H|H]].
    - left. rewrite many_nth in E by lia. split; [lia|]. replace (11 + Z.of_nat (S k)) with (12 + Z.of_nat k) by lia. congruence.
    - right. subst k. rewrite many_last in E. split; auto. congruence.
    - exfalso. assert (Hx : nth_error (many n) (S k) <> None) by congruence. apply nth_error_Some in Hx. rewrite many_len in Hx. lia. }
  split.
  - intros i m Em _. destruct (Ft i m Em) as [[-> ->]|[[Hi ->]|[-> ->]]].
    + exists (seq 1 n). split; [|split; [apply seq_NoDup|]].
      * exists (LM 1 2 0 11 0). split; auto. cbn [l_first]. change 11 with (11 + Z.of_nat 0). apply (many_follows _ n); auto. intros k Hk. rewrite many_nth by auto. eexists. split; reflexivity.
      * intros d. rewrite in_seq. unfold replyto. split; [intros Hd; destruct d as [|d]; [lia|]; rewrite many_nth by lia; reflexivity|]. destruct (nth_error (many n) d) as [m|] eqn:E; [|discriminate]. cbn [option_map]. intros Hm. destruct (Ft d m E) as [[-> ->]|[[Hd ->]|[-> ->]]]; try discriminate. lia.
    + exists []. split; [eexists; split; [exact Em|reflexivity]|]. split; [constructor|]. intros d. split; [intros []|]. unfold replyto. destruct (nth_error (many n) d) as [m|] eqn:E; [|discriminate]. cbn [option_map]. intros Hm. exfalso. assert (Hm' : l_to m = 10 + Z.of_nat i) by congruence. destruct (Ft d m E) as [[-> ->]|[[Hd ->]|[-> ->]]]; cbn [l_to] in Hm'; lia.
    + exists []. split; [eexists; split; [exact Em|reflexivity]|]. split; [constructor|]. intros d. split; [intros []|]. unfold replyto. destruct (nth_error (many n) d) as [m|] eqn:E; [|discriminate]. cbn [option_map]. intros Hm. exfalso. assert (Hm' : l_to m = 10 + Z.of_nat (S n)) by congruence. destruct (Ft d m E) as [[-> ->]|[[Hd ->]|[-> ->]]]; cbn [l_to] in Hm'; lia.
  - intros d m Em Et. destruct (Ft d m Em) as [[-> ->]|[[Hd ->]|[-> ->]]]; auto. discriminate.
Qed.
Theorem C42_limit_refuted n : (1002 <= n)%nat -> Z.of_nat n < 2147483646 -> exists msgs msgs', wellformed msgs 10 /\ replies msgs 10 0 = n /\ replyto msgs (S n) = Some 0 /\ jam_setreply msgs (Z.of_nat (length msgs)) 10 (Z.of_nat 0) (Z.of_nat (S n)) = Some msgs' /\
  replyto msgs' (S n) = Some 10 /\ (forall c, chain msgs' 10 0 c -> ~ In (S n) c).
Proof.
  intros Hn Hm. exists (many n), (setlm (S n) (with_to 10) (many n)). split; [apply many_wf; lia|]. split.
  { unfold replies, many. cbn [filter l_to Z.eqb]. change (0 =? 10 + Z.of_nat 0) with false. cbv iota. rewrite filter_app, app_length. cbn [filter l_to]. change (0 =? 10 + Z.of_nat 0) with false. cbn [length]. rewrite Nat.add_0_r. transitivity (length (seq 0 n)); [|apply seq_length]. generalize (seq 0 n). induction l as [|a l IH]; [reflexivity|]. cbn [map filter l_to]. change (10 =? 10 + Z.of_nat 0) with true. cbv iota. cbn [length]. f_equal. exact IH. }
  split; [unfold replyto; rewrite many_last; reflexivity|]. set (m1 := setlm (S n) (with_to 10) (many n)). assert (L1 : length m1 = S (S n)) by (unfold m1; rewrite setlm_length; apply many_len).
  assert (Hnx : forall k, (k < n)%nat -> exists m, nth_error m1 (S k) = Some m /\ l_next m = if (S k =? n)%nat then 0 else 12 + Z.of_nat k) by (intros k Hk; unfold m1; rewrite setlm_nth; destruct (Nat.eqb_spec (S k) (S n)); [lia|]; rewrite many_nth by auto; eexists; split; reflexivity).
  assert (E0 : nth_error m1 0 = Some (LM 1 2 0 11 0)) by (unfold m1; rewrite setlm_nth; reflexivity).
  pose proof (many_follows m1 n Hnx n 0 ltac:(lia) ltac:(lia)) as F. split; [|split].
  - unfold jam_setreply. rewrite !Nat2Z.id, many_last. change (nth_error (many n) 0) with (Some (LM 1 2 0 11 0)). cbn [l_to Z.eqb negb]. change (u32 (Z.of_nat 0 + 10)) with 10. fold m1. rewrite E0. cbn [l_first Z.eqb]. change (s32 (11 - 10)) with 1. change (u32 1) with 1. destruct (Z.eqb_spec 1 (Z.of_nat (S n))); [lia|]. change (1 <? 0) with false. destruct (Z.leb_spec (Z.of_nat (length (many n))) 1) as [H|H]; [rewrite many_len in H; lia|]. cbn [orb]. rewrite many_len, <- L1.
    destruct n as [|n']; [lia|]. rewrite <- cons_seq in F. pose proof (walk_long m1 10 (S (S n')) ltac:(lia) ltac:(lia) ltac:(lia) 1000 (seq 2 n') 1 F) as Hw. change (Z.of_nat 1) with 1 in Hw. rewrite Hw; [reflexivity| |rewrite seq_length; lia]. rewrite in_seq. lia.
  - unfold replyto, m1. rewrite setlm_nth, Nat.eqb_refl, many_last. reflexivity.
  - intros c Hc. rewrite (chain_fun m1 10 0 c (seq 1 n)); [rewrite in_seq; lia|lia|auto|]. eexists. split; [exact E0|exact F].
Qed.
(** With quick linking, a message without MSGID and REPLY becomes a reply to itself. *)
Definition selfops : list jop := [Add (lh 4294967295 4294967295 0 0 0) [] (lit "No MSGID")].
Definition selfbase : jam := match jrun (fun _ => 7) (JAM_CreateMB 12345 1) selfops with Some j => j | None => JAM [] [] [] [] end.
Definition selflinked : jam := match jam_linkmb true 1 0 selfbase with Some j => j | None => JAM [] [] [] [] end.
Theorem C42_self_refuted : exists ops j j' m, jrun (fun _ => 7) (JAM_CreateMB 12345 1) ops = Some j /\ read_message j 0 = Some (Good m) /\ a_subs m = [] /\ jam_linkmb true 1 0 j = Some j' /\ replyto (links j') 0 = Some (1 + Z.of_nat 0) /\ chain (links j') 1 0 [0%nat].
Proof.
  exists selfops, selfbase, selflinked, (MSG (newhdr 1 (lh 4294967295 4294967295 0 0 0) [] (lit "No MSGID")) [] (lit "No MSGID")). split; [vm_compute; reflexivity|]. split; [vm_compute; reflexivity|]. split; [reflexivity|]. split; [vm_compute; reflexivity|]. split; [vm_compute; reflexivity|]. eexists. split; [vm_compute; reflexivity|apply (chase_follows 9); vm_compute; reflexivity].
Qed.
(** A reply that is removed breaks the chain: a later reply is not found from the message it
    replies to. *)
Definition holeops : list jop := [Add (lh 11 4294967295 0 2 0) (ids "2:1/1 a" "") (lit "First"); Add (lh 12 11 1 0 0) (ids "2:1/1 b" "2:1/1 a") []; Delete 1; Add (lh 13 11 0 0 0) (ids "2:1/1 c" "2:1/1 a") []].
Definition holebase : jam := match jrun (fun _ => 7) (JAM_CreateMB 12345 1) holeops with Some j => j | None => JAM [] [] [] [] end.
Definition holelinked : jam := match jam_linkmb false 1 2 holebase with Some j => j | None => JAM [] [] [] [] end.
Theorem C42_hole_refuted : exists ops j j', jrun (fun _ => 7) (JAM_CreateMB 12345 1) ops = Some j /\ jam_linkmb false 1 2 j = Some j' /\ replyto (links j') 2 = Some (1 + Z.of_nat 0) /\ forall c, chain (links j') 1 0 c -> ~ In 2%nat c.
Proof.
  exists holeops, holebase, holelinked. split; [vm_compute; reflexivity|]. split; [vm_compute; reflexivity|]. split; [vm_compute; reflexivity|].
  assert (Hc : chain (links holelinked) 1 0 [1%nat]) by (eexists; split; [vm_compute; reflexivity|apply (chase_follows 9); vm_compute; reflexivity]). intros c Hc'. rewrite (chain_fun _ 1 0 c _ ltac:(lia) Hc' Hc). intros [H|[]]. discriminate.
Qed.
Print Assumptions C42_limit_refuted.
Print Assumptions C42_self_refuted.
Print Assumptions C42_hole_refuted.
