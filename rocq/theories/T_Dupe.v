(** C16, C17: the duplicate database. *)
From Verif Require Import Base M_Fs P_Fs M_Crc P_Crc M_Mem M_Dupe S_Dupe P_Dupe.

Definition newdb : dupedb := DB [] 0 DUPEID false.
Lemma newdb_inv N : (1 <= N)%nat -> dinv N 0 [] newdb.
Proof.
  intros H. exists []. cbn. split; auto. split; auto. split; auto. split; auto. split; [repeat split; cbn; lia|constructor].
Qed.
Lemma newdb_open N : OpenDupeDB N [] = Some (Some newdb).
Proof. reflexivity. Qed.

(** C16: the answers to any sequence of checks are those of a window of the last N
    recorded messages, compared exactly. *)
Theorem C16_sliding_window : forall N ks, (1 <= N)%nat -> Forall dkey_ok ks -> Z.of_nat (length ks) < 2 ^ 24 ->
  exists db, drun N (newdb, []) (map Check ks) = Some (db, snd (fold_left (dspec N) (map Check ks) ([], []))).
Proof.
  intros N ks HN Hk HM. destruct (drun_ok N HN (map Check ks) 0 [] [] newdb (newdb_inv N HN)) as (db & E & _).
  - apply Forall_map. exact Hk.
  - right. intros Hx. apply in_map_iff in Hx as (x & Hx & _). discriminate.
  - rewrite map_length. exact HM.
  - eauto.
Qed.
Print Assumptions C16_sliding_window.

(** What this means for the user: a message that was checked is reported when it is
    checked again, as long as fewer than N other checks lie between. *)
Lemma spec_keeps N mid : forall k (w1 w2 : list dkey) ans, (length w2 + length mid < N)%nat ->
  exists w1' w2', fst (fold_left (dspec N) (map Check mid) (w1 ++ k :: w2, ans)) = w1' ++ k :: w2' /\ (length w2' <= length w2 + length mid)%nat.
Proof.
  induction mid as [|x mid IH]; intros k w1 w2 ans H; cbn [map fold_left length] in *; [exists w1, w2; split; auto; lia|].
  cbn [dspec fst snd]. destruct (fst x) as [|a b].
  - destruct (IH k w1 w2 (ans ++ [false])) as (w1' & w2' & E & Hl); [lia|]. exists w1', w2'. split; auto. lia.
  - destruct (keyin x (w1 ++ k :: w2)).
    + destruct (IH k w1 w2 (ans ++ [true])) as (w1' & w2' & E & Hl); [lia|]. exists w1', w2'. split; auto. lia.
    + assert (exists u, lastn N ((w1 ++ k :: w2) ++ [x]) = u ++ k :: (w2 ++ [x])) as (u & ->).
      { rewrite <- app_assoc. cbn [app]. unfold lastn. rewrite skipn_app, app_length. cbn [length]. rewrite app_length. cbn [length].
        replace (length w1 + S (length w2 + 1) - N - length w1)%nat with O by lia. rewrite skipn_O. eauto. }
      destruct (IH k u (w2 ++ [x]) (ans ++ [false])) as (w1' & w2' & E & Hl); [rewrite app_length; cbn [length]; lia|].
      exists w1', w2'. split; auto. rewrite app_length in Hl. cbn [length] in Hl. lia.
Qed.
Lemma answers_app N ops s : exists t, snd (fold_left (dspec N) ops s) = snd s ++ t.
Proof.
  revert s; induction ops as [|op ops IH]; intros s; cbn [fold_left]; [exists []; rewrite app_nil_r; auto|].
  destruct (IH (dspec N s op)) as (t & ->). destruct op as [k| |]; cbn [dspec]; eauto.
  destruct (fst k); [|destruct (keyin k (fst s))]; cbn [snd]; rewrite <- app_assoc; eauto.
Qed.
Lemma spec_window_incl N ops : forall w ans k, In k (fst (fold_left (dspec N) ops (w, ans))) -> In k w \/ In (Check k) ops.
Proof.
  induction ops as [|op ops IH]; intros w ans k H; cbn [fold_left] in H; [auto|].
  rewrite (surjective_pairing (dspec N (w, ans) op)) in H. apply IH in H as [H|H]; [|right; right; auto].
  destruct op as [x| |]; cbn [dspec fst snd] in H; auto. destruct (fst x); auto. destruct (keyin x w); auto.
  cbn [fst] in H. apply lastn_incl in H. apply in_app_or in H as [H|[->|[]]]; auto. right; left; auto.
Qed.
Theorem C16_repeat_detected : forall N (pre : list dkey) (k : dkey) (mid : list dkey), (1 <= N)%nat -> fst k <> [] -> ~ In k pre ->
  Forall dkey_ok (pre ++ [k] ++ mid ++ [k]) -> (length mid < N)%nat -> Z.of_nat (length (pre ++ [k] ++ mid ++ [k])) < 2 ^ 24 ->
  exists db ans, drun N (newdb, []) (map Check (pre ++ [k] ++ mid ++ [k])) = Some (db, ans ++ [true]).
Proof.
  intros N pre k mid HN Hne Hnp Hok Hm HM. destruct (C16_sliding_window N _ HN Hok HM) as (db & ->).
  exists db. rewrite !map_app, !fold_left_app. cbn [map fold_left].
  destruct (fold_left (dspec N) (map Check pre) ([], [])) as [w ans] eqn:Ew.
  assert (Hnw : ~ In k w).
  { intros Hw. pose proof (spec_window_incl N (map Check pre) [] [] k) as H. rewrite Ew in H. destruct (H Hw) as [[]|Hx].
    apply in_map_iff in Hx as (x & Ex & Hx). injection Ex as ->. contradiction. }
  assert (E1 : exists w1 ans1, dspec N (w, ans) (Check k) = (w1 ++ [k], ans1)).
  { cbn [dspec fst snd]. destruct (fst k) as [|a b]; [contradiction|]. destruct (keyin k w) eqn:Ein; [apply keyin_In in Ein; contradiction|].
    unfold lastn. rewrite skipn_app, app_length. cbn [length]. replace (length w + 1 - N - length w)%nat with O by lia. rewrite skipn_O. eauto. }
  destruct E1 as (w1 & ans1 & ->). destruct (spec_keeps N mid k w1 [] ans1 Hm) as (w1' & w2' & E2 & _).
  destruct (fold_left (dspec N) (map Check mid) (w1 ++ [k], ans1)) as [w' ans']. cbn [fst] in E2. subst w'.
  exists ans'. cbn [dspec fst snd]. destruct (fst k); [contradiction|].
  assert (Hw : keyin k (w1' ++ k :: w2') = true) by (apply keyin_In, in_or_app; right; left; auto).
  rewrite Hw. reflexivity.
Qed.
Print Assumptions C16_repeat_detected.

(** A message that was never checked before is never reported. *)
Theorem C16_no_false_alarm : forall N (pre : list dkey) (k : dkey), (1 <= N)%nat -> ~ In k pre -> Forall dkey_ok (pre ++ [k]) -> Z.of_nat (length (pre ++ [k])) < 2 ^ 24 ->
  exists db ans, drun N (newdb, []) (map Check (pre ++ [k])) = Some (db, ans ++ [false]).
Proof.
  intros N pre k HN Hnp Hok HM. destruct (C16_sliding_window N _ HN Hok HM) as (db & ->).
  exists db. rewrite !map_app, !fold_left_app. cbn [map fold_left].
  destruct (fold_left (dspec N) (map Check pre) ([], [])) as [w ans] eqn:Ew. exists ans.
  cbn [dspec fst snd]. destruct (fst k); auto. destruct (keyin k w) eqn:Ein; auto. apply keyin_In in Ein.
  pose proof (spec_window_incl N (map Check pre) [] [] k) as H. rewrite Ew in H. destruct (H Ein) as [[]|Hx].
  apply in_map_iff in Hx as (x & Ex & Hx). injection Ex as ->. contradiction.
Qed.
Print Assumptions C16_no_false_alarm.

(** Finding: for a MSGID with a character above 127 the program reads outside its CRC
    table. *)
Theorem C16_8bit_refuted : forall N db area, CheckDupe N db [228] area = None.
Proof. intros. cbn. reflexivity. Qed.
Print Assumptions C16_8bit_refuted.

(** Finding: DUPESIZE 0 makes the first check write outside the index. *)
Theorem C16_size0_refuted : CheckDupe 0 newdb (lit "1:2/3 abcd") (lit "A") = None.
Proof. vm_compute. reflexivity. Qed.
Print Assumptions C16_size0_refuted.

Definition tk1 : dkey := (lit "2:201/505 1", lit "TEST").
Definition tk2 : dkey := (lit "2:201/505 2", lit "TEST").
Definition tk3 : dkey := (lit "2:201/505 1", lit "OTHER").
Ltac okk := repeat (constructor; [unfold dkey_ok, cstring; cbn; repeat split; try lia; repeat constructor; lia|]); constructor.
Example C16_nonvacuous : Forall dkey_ok [tk1; tk2; tk1; tk3; tk1] /\
  option_map snd (drun 2 (newdb, []) (map Check [tk1; tk2; tk1; tk3; tk1])) = Some [false; false; true; false; false].
Proof. split; [okk|]. vm_compute. reflexivity. Qed.

(** ** C17 *)

(** Any history of checks, orderly restarts and kills (between two messages) gives the
    same answers as if the program had never stopped. *)
Theorem C17_restarts_invisible : forall N ops, 1 <= Z.of_nat N <= 65536 -> Forall dop_ok ops -> Z.of_nat (length ops) < 2 ^ 24 ->
  exists db, drun N (newdb, []) ops = Some (db, snd (fold_left (dspec N) ops ([], []))).
Proof.
  intros N ops HN Hk HM. destruct (drun_ok N ltac:(lia) ops 0 [] [] newdb (newdb_inv N ltac:(lia))) as (db & E & _); eauto. left. lia.
Qed.
Print Assumptions C17_restarts_invisible.

(** A file is opened exactly if it is empty, or consists of the identifier, records of 1
    to 300 bytes, each preceded by its length, and at most one further byte. *)
Theorem C17_opened_iff_wellformed : forall N file, (1 <= N)%nat -> bytes file ->
  (exists db, OpenDupeDB N file = Some (Some db)) <->
  file = [] \/ exists rs t, file = DUPEID ++ recfile rs ++ t /\ Forall wfrec rs /\ (length t <= 1)%nat.
Proof.
  intros N file HN Hb. split.
  - intros (db & E). destruct file as [|c file']; [auto|]. right. remember (c :: file') as file eqn:Ef. unfold OpenDupeDB in E.
    destruct (streq (firstn 4 file) DUPEID) eqn:Es; [|destruct file; [discriminate|discriminate]]. apply streq_eq in Es.
    assert (E' : exists r, readindex (S (length file)) N 4 (DUPEID ++ [0]) (skipn 4 file) [] 0 = Some (Some r)).
    { destruct file; [discriminate|]. destruct (readindex _ _ _ _ _ _ _) as [[r|]|]; try discriminate. eauto. }
    destruct E' as (r & E'). apply readindex_wf in E' as (rs & t & E1 & H1 & H2).
    + exists rs, t. rewrite <- E1, <- Es, firstn_skipn. auto.
    + rewrite skipn_length. lia.
    + unfold bytes in *. rewrite <- (firstn_skipn 4 file) in Hb. apply Forall_app in Hb. tauto.
  - intros [->|(rs & t & -> & H1 & H2)]; [eexists; reflexivity|]. unfold OpenDupeDB.
    replace (firstn 4 (DUPEID ++ recfile rs ++ t)) with DUPEID by reflexivity. rewrite streq_refl.
    replace (skipn 4 (DUPEID ++ recfile rs ++ t)) with (recfile rs ++ t) by reflexivity.
    destruct (readindex_rs N rs t H1 H2 (S (length (DUPEID ++ recfile rs ++ t))) 4 (DUPEID ++ [0]) [] 0) as (ix & num & -> & _).
    + rewrite !app_length. assert (length rs <= length (recfile rs))%nat; [|lia]. clear.
      induction rs as [|r rs IH]; [cbn; lia|]. rewrite recfile_cons, app_length, frec_length. cbn [length]. lia.
    + repeat split; cbn; lia.
    + change (DUPEID ++ recfile rs ++ t) with (67 :: 68 :: 85 :: 50 :: recfile rs ++ t). eauto.
Qed.
Print Assumptions C17_opened_iff_wellformed.

(** In particular a file whose last record is cut short (by more than its first byte) is
    rejected. *)
Theorem C17_cut_record_rejected : forall N rs r n, (1 <= N)%nat -> Forall wfrec rs -> wfrec r -> bytes (recfile rs) -> bytes r -> (2 <= n < 2 + length r)%nat ->
  OpenDupeDB N (DUPEID ++ recfile rs ++ firstn n (le16 (Z.of_nat (length r)) ++ r)) = None.
Proof.
  intros N rs r n HN Hrs Hr Hb1 Hb2 Hn. unfold OpenDupeDB.
  replace (firstn n (le16 (Z.of_nat (length r)) ++ r)) with (le16 (Z.of_nat (length r)) ++ firstn (n - 2) r)
    by (rewrite firstn_app; rewrite (firstn_all2 (le16 _)) by (cbn; lia); reflexivity).
  set (t := le16 (Z.of_nat (length r)) ++ firstn (n - 2) r).
  replace (firstn 4 (DUPEID ++ recfile rs ++ t)) with DUPEID by reflexivity. rewrite streq_refl.
  replace (skipn 4 (DUPEID ++ recfile rs ++ t)) with (recfile rs ++ t) by reflexivity.
  change (DUPEID ++ recfile rs ++ t) with (67 :: 68 :: 85 :: 50 :: recfile rs ++ t) at 1. cbv iota.
  assert (Hgen : forall rs, Forall wfrec rs -> forall fuel off buf ix num, (length rs < fuel)%nat -> ringok N ix num -> readindex fuel N off buf (recfile rs ++ t) ix num = None).
  { clear Hrs Hb1. intros rs' Hrs'. induction Hrs' as [|r' rs' Hr' Hrs' IH]; intros fuel off buf ix num Hf Hri; (destruct fuel as [|fuel]; [cbn in Hf; lia|]).
    - cbn [recfile map concat app]. unfold t, le16. cbn [app readindex]. unfold wfrec in Hr.
      assert (E : Z.of_nat (length r) mod 256 + 256 * ((Z.of_nat (length r) / 256) mod 256) = Z.of_nat (length r)) by zlia.
      rewrite E, Nat2Z.id. destruct (Z.eqb_spec (Z.of_nat (length r)) 0); [lia|]. destruct (Z.ltb_spec 300 (Z.of_nat (length r))); [lia|]. cbn [orb].
      destruct (Nat.ltb_spec (length (firstn (n - 2) r)) (length r)) as [|Hx]; auto. rewrite firstn_length in Hx. lia.
    - rewrite recfile_cons, <- app_assoc, readindex_eq by auto.
      destruct (ring_add N ix num off (get32 (r' ++ skipn (length r') buf) 0) Hri) as (ix1 & num1 & -> & Hr1 & _). apply IH; auto. cbn [length] in Hf. lia. }
  rewrite Hgen; auto.
  - rewrite !app_length. assert (length rs <= length (recfile rs))%nat; [|lia]. clear.
    induction rs as [|r rs IH]; [cbn; lia|]. rewrite recfile_cons, app_length, frec_length. cbn [length]. lia.
  - repeat split; cbn; lia.
Qed.
Print Assumptions C17_cut_record_rejected.

(** Finding: a file that ends in a single stray byte is accepted, and the record written
    next makes the file unreadable if the program is then killed. *)
Theorem C17_stray_byte_refuted : exists file db db', OpenDupeDB 10 file = Some (Some db) /\
  CheckDupe 10 db (fst tk1) (snd tk1) = Some (false, db') /\ OpenDupeDB 10 (d_file db') = None.
Proof. exists (DUPEID ++ [5]). do 2 eexists. split; [reflexivity|]. split; [vm_compute; reflexivity|]. vm_compute. reflexivity. Qed.
Print Assumptions C17_stray_byte_refuted.

(** Closing on the file system: at every point where the program can be stopped, either
    the database file holds the window, or it is missing and the temporary file holds it. *)
Theorem C17_close_crash_points : forall N m w db fs name states f, 1 <= Z.of_nat N <= 65536 -> Z.of_nat m < 2 ^ 24 ->
  dinv N m w db -> CloseSteps fs name db = Some states -> In f states ->
  (exists content db', fget f name = Some content /\ OpenDupeDB N content = Some (Some db') /\ dinv N m w db') \/
  (fget f name = None /\ exists content db', fget f (name ++ lit ".tmp") = Some content /\ OpenDupeDB N content = Some (Some db') /\ dinv N m w db').
Proof.
  intros N m w db fs name states f HN HM Hi E Hf. pose proof (newfile_ok N m w db ltac:(lia) Hi) as En.
  destruct Hi as (all & Ef & Ew & Hall & Hm & Hrest).
  destruct (open_inv N m all ltac:(lia) Hall Hm HM) as (db1 & E1 & H1 & _). rewrite <- Ef, <- Ew in *.
  assert (Hallw : Forall dkey_ok w).
  { subst w. apply Forall_forall. intros k Hk. apply lastn_incl in Hk. rewrite Forall_forall in Hall. auto. }
  destruct (open_inv N m w ltac:(lia) Hallw) as (db2 & E2 & H2 & _); [subst w; rewrite lastn_length; lia|exact HM|].
  assert (Hw2 : lastn N w = w) by (apply lastn_all; subst w; rewrite lastn_length; lia). rewrite Hw2 in H2.
  assert (Htmp : name <> name ++ lit ".tmp").
  { intros Hx. apply (f_equal (@length Z)) in Hx. rewrite app_length in Hx. cbn in Hx. lia. }
  unfold CloseSteps in E. destruct (d_changed db).
  - rewrite En in E. cbn [obind] in E. set (tmp := name ++ lit ".tmp") in *. set (new := DUPEID ++ recfile (map rec w)) in *.
    assert (Hg : fget (osDelete (fput (fput fs name (d_file db)) tmp new) name) tmp = Some new).
    { rewrite fget_del_other by auto. apply fget_put_same. }
    destruct (osRename _ tmp name) as [fs4|] eqn:Er; [|discriminate]. cbn [obind] in E.
    match goal with E : Some ?l = Some states |- _ => assert (Es : l = states) by congruence; clear E; rewrite <- Es in Hf; clear Es end.
    apply rename_same in Er. rewrite Hg in Er.
    destruct Hf as [<-|[<-|[<-|[<-|[<-|[]]]]]].
    + left. exists (d_file db), db1. rewrite fget_put_same. auto.
    + left. exists (d_file db), db1. rewrite fget_put_other, fget_put_same by auto. auto.
    + left. exists (d_file db), db1. rewrite fget_put_other, fget_put_same by auto. auto.
    + right. rewrite fget_del_same. split; auto. exists new, db2. rewrite Hg. auto.
    + left. exists new, db2. auto.
  - injection E as <-. destruct Hf as [<-|[]]. left. exists (d_file db), db1. rewrite fget_put_same. auto.
Qed.
Print Assumptions C17_close_crash_points.

(** Finding: the second case does happen; the program then starts with an empty database
    and does not detect a duplicate. *)
Theorem C17_close_crash_refuted : exists db fs name states f db', drun 10 (newdb, []) [Check tk1] = Some (db, [false]) /\
  CloseSteps fs name db = Some states /\ In f states /\ fget f name = None /\
  CheckDupe 10 newdb (fst tk1) (snd tk1) = Some (false, db') /\ OpenDupeDB 10 [] = Some (Some newdb).
Proof.
  do 1 eexists. exists [], (lit "dupes"). do 3 eexists. split; [vm_compute; reflexivity|]. split; [vm_compute; reflexivity|].
  split; [right; right; right; left; reflexivity|]. split; [vm_compute; reflexivity|]. split; [vm_compute; reflexivity|reflexivity].
Qed.
Print Assumptions C17_close_crash_refuted.

Example C17_nonvacuous : Forall dop_ok [Check tk1; Restart; Check tk1; Kill; Check tk2; Check tk3; Restart; Check tk1; Check tk2] /\
  option_map snd (drun 2 (newdb, []) [Check tk1; Restart; Check tk1; Kill; Check tk2; Check tk3; Restart; Check tk2; Check tk1]) =
  Some [false; true; false; false; true; false].
Proof.
  split; [|vm_compute; reflexivity].
  repeat (constructor; [cbn [dop_ok]; try exact I; unfold dkey_ok, cstring; cbn; repeat split; try lia; repeat constructor; lia|]); constructor.
Qed.

(** ** Databases of more than 65536 messages *)
Definition bigkey (i : nat) : dkey := (dec (Z.of_nat i), lit "A").
Lemma bigkey_ok i : Z.of_nat i < 65538 -> dkey_ok (bigkey i).
Proof.
  intros H. unfold bigkey, dkey_ok. cbn [fst snd]. split; [|split; [|split]].
  - eapply Forall_impl; [|apply dec_digits; lia]. unfold digit. intros; lia.
  - pose proof (dec_length (Z.of_nat i) 5 ltac:(lia) ltac:(lia) ltac:(cbn; lia)). lia.
  - unfold cstring; cbn; repeat constructor; lia.
  - cbn. lia.
Qed.
Lemma bigkey_inj i j : bigkey i = bigkey j -> i = j.
Proof. intros H. injection H as H. apply dec_inj in H; lia. Qed.
Lemma spec_fresh N (ks : list dkey) : forall (w : list dkey) ans, (length w + length ks <= N)%nat -> NoDup (w ++ ks) -> Forall (fun k : dkey => fst k <> []) ks ->
  exists ans', fold_left (dspec N) (map Check ks) (w, ans) = (w ++ ks, ans').
Proof.
  induction ks as [|k ks IH]; intros w ans Hl Hn Hne; cbn [map fold_left]; [rewrite app_nil_r; eauto|].
  inversion Hne as [|? ? H1 H2]; subst. cbn [dspec fst snd length] in *. destruct (fst k) eqn:Ek; [contradiction|].
  destruct (keyin k w) eqn:Ein.
  - apply keyin_In in Ein. apply NoDup_remove_2 in Hn. exfalso. apply Hn, in_or_app; auto.
  - rewrite lastn_all by (rewrite app_length; cbn [length]; lia). replace (w ++ k :: ks) with ((w ++ [k]) ++ ks) by (rewrite <- app_assoc; reflexivity).
    apply IH; auto; [rewrite app_length; cbn [length]; lia|]. rewrite <- app_assoc. exact Hn.
Qed.
(** Finding: with a database size above 65536 a restart loses messages: the index in
    copydupe is 16 bits wide. *)
Theorem C17_large_refuted : exists N ks, Forall dkey_ok ks /\ (length ks < N)%nat /\ NoDup ks /\
  exists k db db' f db2 db3, In k ks /\
    drun N (newdb, []) (map Check ks) = Some (db, snd (fold_left (dspec N) (map Check ks) ([], []))) /\
    CheckDupe N db (fst k) (snd k) = Some (true, db') /\
    CloseDupeDB db = Some f /\ OpenDupeDB N f = Some (Some db2) /\ CheckDupe N db2 (fst k) (snd k) = Some (false, db3).
Proof.
  destruct (Z_of_nat_complete 65536 ltac:(lia)) as (n & Hn). symmetry in Hn. set (ks := map bigkey (seq 0 (S n))). exists (S (S n)), ks.
  assert (Hok : Forall dkey_ok ks).
  { apply Forall_map, Forall_forall. intros i Hi. apply in_seq in Hi. apply bigkey_ok. lia. }
  assert (Hlen : length ks = S n) by (unfold ks; rewrite map_length, seq_length; auto).
  assert (Hnd : NoDup ks). { apply FinFun.Injective_map_NoDup; [intros i j; apply bigkey_inj|apply seq_NoDup]. }
  split; auto. split; [lia|]. split; auto.
  assert (Hnei : forall i, fst (bigkey i) <> []) by (intros i; cbn; apply dec_nonempty; lia).
  assert (Hne : Forall (fun k : dkey => fst k <> []) ks) by (apply Forall_map, Forall_forall; auto).
  destruct (drun_ok (S (S n)) ltac:(lia) (map Check ks) 0 [] [] newdb (newdb_inv (S (S n)) ltac:(lia))) as (db & E & Hd).
  { apply Forall_map. exact Hok. }
  { right. intros Hx. apply in_map_iff in Hx as (x & Hx & _). discriminate. }
  { rewrite map_length, Hlen. unfold MAXOPS. lia. }
  destruct (spec_fresh (S (S n)) ks [] []) as (ans & Es); [rewrite Hlen; cbn [length]; lia|exact Hnd|exact Hne|]. cbn [app] in Es. rewrite Es in *. cbn [fst snd] in *.
  rewrite map_length, Hlen in Hd. cbn [plus] in Hd.
  assert (Hlast : In (bigkey n) ks) by (apply in_map, in_seq; lia).
  assert (Hk : dkey_ok (bigkey n)) by (apply bigkey_ok; lia).
  destruct (check_inv (S (S n)) (S n) ks db (bigkey n)) as (db' & E1 & _); [lia|auto|auto|auto|unfold MAXOPS; lia|].
  assert (Ein : keyin (bigkey n) ks = true) by (apply keyin_In; auto). rewrite Ein in E1.
  (* the new file *)
  set (ks2 := map bigkey (seq 0 n) ++ [bigkey 0]).
  assert (Hks : ks = map bigkey (seq 0 n) ++ [bigkey n]) by (unfold ks; rewrite seq_S, map_app; reflexivity).
  assert (Hf : CloseDupeDB db = Some (DUPEID ++ recfile (map rec ks2))).
  { destruct Hd as (all & Ef & Ew & Hall & Hm & (R1 & [R2 R3] & R4) & H2).
    assert (Hc : d_changed db = true).
    { destruct (d_changed db) eqn:Ec; auto. exfalso.
      assert (Hc : forall ks db ans db' ans', drun (S (S n)) (db, ans) (map Check ks) = Some (db', ans') -> d_changed db = true -> d_changed db' = true).
      { clear. induction ks as [|k ks IH]; intros db ans db' ans' E Hc; cbn [map drun] in E; [injection E as <- <-; auto|].
        cbn [drun1 fst snd] in E. destruct (CheckDupe (S (S n)) db (fst k) (snd k)) as [[b d]|] eqn:Ec; [|discriminate]. cbn [obind] in E.
        apply IH in E; auto. unfold CheckDupe in Ec. destruct (fst k); [injection Ec as <- <-; auto|].
        destruct (duperec _ _) as [[c r]|]; [|discriminate]. cbn [obind] in Ec. destruct (existsb _ _); [injection Ec as <- <-; auto|].
        unfold AddDupeBuf in Ec. destruct (adddupeindex _ _ _ _ _); [|discriminate]. cbn [obind] in Ec. injection Ec as <- <-. reflexivity. }
      assert (Eks : ks = bigkey 0 :: map bigkey (seq 1 n)) by reflexivity. rewrite Eks in E. cbn [map drun drun1 fst snd] in E.
      destruct (check_inv (S (S n)) 0 [] newdb (bigkey 0)) as (d0 & E0 & _); [lia|apply newdb_inv; lia|apply bigkey_ok; lia|auto|unfold MAXOPS; lia|].
      change (keyin (bigkey 0) []) with false in E0. change (fst (bigkey 0)) with (dec (Z.of_nat 0)) in E0. change (snd (bigkey 0)) with (lit "A") in E0.
      change (fst (bigkey 0)) with (dec (Z.of_nat 0)) in E. change (snd (bigkey 0)) with (lit "A") in E. rewrite E0 in E. cbn [obind] in E. apply Hc in E; [congruence|].
      unfold CheckDupe in E0. destruct (dec (Z.of_nat 0)) eqn:Ed; [apply dec_nonempty in Ed; [destruct Ed|lia]|].
      destruct (duperec _ _) as [[c r]|]; [|discriminate]. cbn [obind existsb newdb d_ix] in E0.
      unfold AddDupeBuf in E0. destruct (adddupeindex _ _ _ _ _); [|discriminate]. cbn [obind] in E0. injection E0 as <-. reflexivity. }
    unfold CloseDupeDB. rewrite Hc. unfold newdupefile.
    pose proof (Forall2_len _ _ _ H2) as Hl. rewrite Hlen in Hl. unfold order in Hl. rewrite app_length, skipn_length, firstn_length in Hl.
    assert (Hixl : length (d_ix db) = S n) by lia. rewrite Hixl in *. rewrite R4 in * by lia. rewrite Nat.sub_diag. change (seq (S n) 0) with (@nil nat). replace (copyall (d_ix db) (d_file db) []) with (Some (@nil Z)) by reflexivity. cbn [obind app].
    unfold order in H2. rewrite skipn_all2, firstn_all2 in H2 by lia. cbn [app] in H2. rewrite Hks in H2.
    apply Forall2_app_inv_r in H2 as (e1 & e2 & F1 & F2 & Eix). inversion F2 as [|el ? ? ? Fl Fn]; subst. inversion Fn; subst. clear F2 Fn.
    rewrite seq_S. cbn [plus].
    rewrite copyall_app. pose proof (Forall2_len _ _ _ F1) as Hl1. rewrite map_length, seq_length in Hl1.
    pose proof (copyall_ok (d_ix db) (d_file db) n ltac:(lia) e1 (map bigkey (seq 0 n)) 0 F1) as C1. rewrite Hl1 in C1. rewrite C1.
    - cbn [obind copyall]. unfold copydupe. replace (u16 (Z.of_nat n)) with 0 by (rewrite Hn; reflexivity). cbn [Z.to_nat].
      destruct n as [|n']; [lia|]. destruct e1 as [|e0 e1]; [discriminate|]. rewrite Eix. cbn [app nth_error].
      inversion F1 as [|? ? ? ? F0 _]; subst.
      destruct F0 as (pre & rest & Efile & ->). rewrite Efile. 
      pose proof (rec_bound (bigkey 0) ltac:(apply bigkey_ok; lia)) as Hb. rewrite readrec_at by lia.
      destruct (Z.ltb_spec 300 (Z.of_nat (length (rec (bigkey 0))))); [lia|]. cbn [obind].
      unfold ks2. rewrite map_app, recfile_app. unfold frec. rewrite app_nil_r. cbn [map]. rewrite (recfile_cons (rec (bigkey 0)) []). cbn [recfile map concat]. rewrite app_nil_r. reflexivity.
    - apply Forall_map, Forall_forall. intros i Hi. apply in_seq in Hi. apply bigkey_ok. lia.
    - intros i Hi. rewrite Eix. cbn [plus]. rewrite nth_error_app1 by lia. reflexivity.
    - lia. }
  assert (Hok2 : Forall dkey_ok ks2).
  { apply Forall_app. split; [|constructor; [apply bigkey_ok; lia|constructor]]. apply Forall_map, Forall_forall. intros i Hi. apply in_seq in Hi. apply bigkey_ok. lia. }
  assert (Hlen2 : length ks2 = S n) by (unfold ks2; rewrite app_length, map_length, seq_length; cbn [length]; lia).
  destruct (open_inv (S (S n)) (S n) ks2) as (db2 & E2 & Hd2 & _); [lia|auto|lia|unfold MAXOPS; lia|].
  rewrite lastn_all in Hd2 by lia.
  destruct (check_inv (S (S n)) (S n) ks2 db2 (bigkey n)) as (db3 & E3 & _); [lia|auto|auto|auto|unfold MAXOPS; lia|].
  assert (Ein2 : keyin (bigkey n) ks2 = false).
  { destruct (keyin (bigkey n) ks2) eqn:Ex; auto. apply keyin_In in Ex. unfold ks2 in Ex. apply in_app_or in Ex as [Ex|[Ex|[]]].
    - apply in_map_iff in Ex as (i & Ei & Hi). apply bigkey_inj in Ei. apply in_seq in Hi. lia.
    - apply bigkey_inj in Ex. lia. }
  rewrite Ein2 in E3. exists (bigkey n), db, db', (DUPEID ++ recfile (map rec ks2)), db2, db3. repeat split; auto.
Qed.
Print Assumptions C17_large_refuted.
