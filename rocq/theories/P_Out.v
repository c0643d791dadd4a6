(** Lemmas about the outbound. *)
From Verif Require Import Base M_Node4D S_Node4D P_Node4D M_Pat M_Str S_Str P_Str M_Mem M_Cfg M_Pkt S_Pkt P_Pkt M_Fs P_Fs M_Filter M_Out S_Out.

(** ** Base names *)
Lemma hexdig_notslash d : 0 <= d < 16 -> hexdig d <> PATHCHAR /\ hexdig d <> 46 /\ 48 <= hexdig d <= 102.
Proof. unfold hexdig, PATHCHAR. destruct (Z.ltb_spec d 10); lia. Qed.
Lemma hex_chars n z : Forall (fun c => 48 <= c <= 102) (hex n z).
Proof.
  revert z; induction n as [|n IH]; intros z; cbn [hex]; [constructor|]. apply Forall_app. split; auto. constructor; auto.
  apply hexdig_notslash. zlia.
Qed.
Lemma hex_notslash n z : ~ In PATHCHAR (hex n z).
Proof. intros H. pose proof (hex_chars n z) as F. rewrite Forall_forall in F. apply F in H. unfold PATHCHAR in H. lia. Qed.
Lemma cut_slash a b x y : ~ In PATHCHAR a -> ~ In PATHCHAR b -> a ++ PATHCHAR :: x = b ++ PATHCHAR :: y -> a = b /\ x = y.
Proof.
  revert b; induction a as [|c a IH]; intros [|d b] Ha Hb E; cbn [app] in E.
  - inversion E; auto.
  - inversion E as [[E1 E2]]. exfalso. apply Hb. rewrite E1. left; auto.
  - inversion E as [[E1 E2]]. exfalso. apply Ha. rewrite <- E1. left; auto.
  - inversion E as [[E1 E2]]. destruct (IH b) as [-> ->]; auto; intros H; [apply Ha|apply Hb]; right; auto.
Qed.
Lemma hexmin3_inj a b : is_u16 a -> is_u16 b -> hexmin3 a = hexmin3 b -> a = b.
Proof.
  unfold is_u16, hexmin3. intros Ha Hb. destruct (Z.ltb_spec a 4096), (Z.ltb_spec b 4096); intros E.
  - apply (hex_inj 3); auto; change (16 ^ Z.of_nat 3) with 4096; lia.
  - apply (f_equal (@List.length Z)) in E. rewrite !hex_length in E. lia.
  - apply (f_equal (@List.length Z)) in E. rewrite !hex_length in E. lia.
  - apply (hex_inj 4); auto; change (16 ^ Z.of_nat 4) with 65536; lia.
Qed.
Lemma hexmin3_notslash z : ~ In PATHCHAR (hexmin3 z).
Proof. unfold hexmin3. destruct (z <? 4096); apply hex_notslash. Qed.

(** the part behind the directory *)
Definition tailname (n : node4d) : list Z :=
  hex 4 (net n) ++ hex 4 (node n) ++ (if point n =? 0 then [] else lit ".pnt" ++ [PATHCHAR] ++ hex 8 (point n)).
Lemma tailname_inj n n' : valid4d n -> valid4d n' -> tailname n = tailname n' -> net n = net n' /\ node n = node n' /\ point n = point n'.
Proof.
  intros (_ & Hn & Hf & Hp) (_ & Hn' & Hf' & Hp') E. unfold tailname in E. unfold is_u16 in *.
  apply app_eq_len in E as [E1 E]; [|rewrite !hex_length; auto]. apply app_eq_len in E as [E2 E]; [|rewrite !hex_length; auto].
  apply hex_inj in E1; try (change (16 ^ Z.of_nat 4) with 65536; lia).
  apply hex_inj in E2; try (change (16 ^ Z.of_nat 4) with 65536; lia). split; auto. split; auto.
  destruct (Z.eqb_spec (point n) 0), (Z.eqb_spec (point n') 0); try congruence.
  - discriminate.
  - discriminate.
  - apply app_inv_head in E. apply app_inv_head in E. apply hex_inj in E; auto; change (16 ^ Z.of_nat 8) with 4294967296; lia.
Qed.
Lemma findroute_spec env n : match findroute (oe_nl env) (oe_routes env) n with
  | Some r => routed_by env n r
  | None => Forall (fun x => Compare4DPat (oe_nl env) (rt_pat x) n <> 0) (oe_routes env)
  end.
Proof.
  unfold findroute, routed_by. induction (oe_routes env) as [|x l IH]; cbn [find]; [constructor|].
  destruct (Z.eqb_spec (Compare4DPat (oe_nl env) (rt_pat x) n) 0) as [E|E].
  - exists [], l. auto.
  - destruct (find _ l) as [r|]; [|constructor; auto]. destruct IH as (l1 & l2 & -> & H1 & H2).
    exists (x :: l1), l2. auto.
Qed.
Lemma routed_by_fun env n r r' : routed_by env n r -> routed_by env n r' -> r = r'.
Proof.
  intros (l1 & l2 & E & H & F) (l1' & l2' & E' & H' & F'). rewrite E in E'. clear E.
  revert l1' E' F F'; induction l1 as [|x l1 IH]; intros [|x' l1'] E' F F'; cbn [app] in E'; inversion E'; subst; auto.
  - inversion F'; subst. contradiction.
  - inversion F; subst. contradiction.
  - inversion F; inversion F'; subst. eapply IH; eauto.
Qed.
Lemma otherdomain_spec env first rest n : oe_akas env = first :: rest ->
  match otherdomain env first n with
  | Some d => foreign env n d
  | None => forall d, ~ foreign env n d
  end.
Proof.
  intros Ea. unfold otherdomain. pose proof (findroute_spec env n) as H. destruct (findroute _ _ n) as [r|].
  - destruct (ak_domain (rt_aka r)) as [|a d] eqn:Ed.
    + intros d (r' & Hr & -> & Hne & _). rewrite (routed_by_fun _ _ _ _ Hr H) in Hne. congruence.
    + destruct (ak_domain first) as [|b f] eqn:Ef.
      * intros d' (r' & Hr & -> & _ & Hm & _). unfold main_domain in Hm. rewrite Ea in Hm. congruence.
      * destruct (streqi (a :: d) (b :: f)) eqn:Es.
        -- intros d' (r' & Hr & -> & _ & _ & Hm). rewrite (routed_by_fun _ _ _ _ Hr H), Ed in Hm.
           unfold main_domain in Hm. rewrite Ea, Ef in Hm. apply Hm. apply streq_eq. exact Es.
        -- exists r. split; auto. split; [auto|]. split; [discriminate|]. unfold main_domain. rewrite Ea, Ef. split; [discriminate|].
           intros E. apply streq_eq in E. unfold streqi in Es. congruence.
  - intros d (r & (l1 & l2 & E & H1 & _) & _). rewrite E in H. apply Forall_app in H as [_ H]. inversion H. contradiction.
Qed.

(** the directory *)
Definition basedir (env : oenv) (first : aka) (n : node4d) : list Z :=
  let out := stripslash (oe_outbound env) in
  match otherdomain env first n with
  | Some d => firstn (length out - length (GetFilePart out)) out ++ d
  | None => if zone n =? zone (ak_node first) then out else out ++ lit "." ++ hexmin3 (zone n)
  end.
Lemma MakeBaseName_eq env first rest n : oe_akas env = first :: rest ->
  MakeBaseName env n = Some (basedir env first n ++ PATHCHAR :: tailname n).
Proof.
  intros E. unfold MakeBaseName. rewrite E. fold (basedir env first n). unfold tailname. f_equal.
  destruct (point n =? 0); cbn [app]; rewrite <- ?app_assoc; rewrite ?app_nil_r; reflexivity.
Qed.
(** a directory name ends in a part without slash behind a common prefix *)
Lemma stripslash_length s : (length (stripslash s) <= length s)%nat.
Proof.
  unfold stripslash. destruct (rev s) as [|c r] eqn:E; [simpl; lia|].
  apply (f_equal (@List.length Z)) in E. rewrite rev_length in E. simpl in E. destruct (c =? PATHCHAR); rewrite ?rev_length; lia.
Qed.
Lemma GetFilePart_suffix s : exists d, s = d ++ GetFilePart s.
Proof.
  destruct (GetFilePart_spec s) as [_ [[_ ->]|(d & E)]]; [exists []; auto|].
  exists (d ++ [PATHCHAR]). rewrite <- app_assoc. exact E.
Qed.
Lemma filepart_prefix s : firstn (length s - length (GetFilePart s)) s ++ GetFilePart s = s.
Proof.
  destruct (GetFilePart_suffix s) as (d & E). assert (Hl : length s = (length d + length (GetFilePart s))%nat) by (rewrite <- app_length; congruence).
  replace (length s - length (GetFilePart s))%nat with (length d) by lia. revert E. generalize (GetFilePart s). intros p ->.
  rewrite firstn_app, Nat.sub_diag, firstn_all. cbn [firstn]. rewrite app_nil_r. reflexivity.
Qed.
Lemma basedir_form env first rest n : oenv_ok env -> oe_akas env = first :: rest ->
  let pre := firstn (length (stripslash (oe_outbound env)) - length (last_component env)) (stripslash (oe_outbound env)) in
  exists w, basedir env first n = pre ++ w /\ ~ In PATHCHAR w /\
   ((foreign env n w) \/ ((forall d, ~ foreign env n d) /\
      w = last_component env ++ (if zone n =? zone (ak_node first) then [] else lit "." ++ hexmin3 (zone n)))).
Proof.
  intros [_ Hd] Ea pre. unfold basedir. pose proof (otherdomain_spec env first rest n Ea) as H.
  destruct (otherdomain env first n) as [d|].
  - exists d. split; [reflexivity|]. split; auto. destruct H as (r & (l1 & l2 & E & _) & -> & _).
    rewrite E in Hd. apply Forall_app in Hd as [_ Hd]. inversion Hd as [|? ? [Hx _] _]; auto.
  - eexists. split; [|split; [|right; split; [exact H|reflexivity]]].
    + unfold pre. rewrite (app_assoc (firstn _ _)). unfold last_component. rewrite filepart_prefix.
      destruct (zone n =? zone (ak_node first)); [rewrite app_nil_r; reflexivity|reflexivity].
    + intros Hin. apply in_app_or in Hin as [Hin|Hin].
      * unfold last_component in Hin. apply (proj1 (GetFilePart_spec _)) in Hin. exact Hin.
      * destruct (zone n =? zone (ak_node first)); [exact Hin|]. cbn in Hin. destruct Hin as [Hin|Hin]; [discriminate|].
        apply hexmin3_notslash in Hin. exact Hin.
Qed.
Lemma foreign_fun env n d d' : foreign env n d -> foreign env n d' -> d = d'.
Proof. intros (r & Hr & -> & _) (r' & Hr' & -> & _). rewrite (routed_by_fun _ _ _ _ Hr Hr'). reflexivity. Qed.

Lemma base_eq env n n' b : oenv_ok env -> MakeBaseName env n = Some b -> MakeBaseName env n' = Some b ->
  valid4d n -> valid4d n' ->
  net n = net n' /\ node n = node n' /\ point n = point n' /\
  ((exists d, foreign env n d /\ foreign env n' d) \/
   ((forall d, ~ foreign env n d) /\ (forall d, ~ foreign env n' d) /\ zone n = zone n') \/
   (exists d e, (foreign env n d /\ (forall d, ~ foreign env n' d) \/ foreign env n' d /\ (forall d, ~ foreign env n d)) /\
      d = last_component env ++ e /\ (e = [] \/ exists z, e = lit "." ++ hexmin3 z))).
Proof.
  intros Hok H H' Hv Hv'. destruct (oe_akas env) as [|first rest] eqn:Ea; [unfold MakeBaseName in H; rewrite Ea in H; discriminate|].
  rewrite (MakeBaseName_eq env first rest) in H, H' by auto.
  destruct (basedir_form env first rest n Hok Ea) as (w & Ew & Hw & Hc).
  destruct (basedir_form env first rest n' Hok Ea) as (w' & Ew' & Hw' & Hc').
  rewrite Ew, <- app_assoc in H. rewrite Ew', <- app_assoc in H'.
  assert (E : w ++ PATHCHAR :: tailname n = w' ++ PATHCHAR :: tailname n') by (rewrite <- H' in H; injection H as H; apply app_inv_head in H; exact H).
  apply cut_slash in E as [E1 E2]; auto. apply tailname_inj in E2 as (E2 & E3 & E4); auto. subst w'.
  repeat (split; [assumption|]). destruct Hc as [Hc|[Hc Ec]], Hc' as [Hc'|[Hc' Ec']].
  - left. eauto.
  - right; right. exists w. eexists. split; [left; split; auto|]. split; [exact Ec'|].
    destruct (zone n' =? zone (ak_node first)); eauto.
  - right; right. exists w. eexists. split; [right; split; auto|]. split; [exact Ec|].
    destruct (zone n =? zone (ak_node first)); eauto.
  - right; left. split; auto. split; auto. rewrite Ec in Ec'. apply app_inv_head in Ec'.
    destruct Hv as [Hz _], Hv' as [Hz' _].
    destruct (Z.eqb_spec (zone n) (zone (ak_node first))), (Z.eqb_spec (zone n') (zone (ak_node first))); try congruence.
    + discriminate.
    + discriminate.
    + apply app_inv_head in Ec'. apply hexmin3_inj in Ec'; auto.
Qed.

Lemma base_length env n b : oenv_ok env -> MakeBaseName env n = Some b -> (length b <= 141)%nat.
Proof.
  intros Hok H. destruct (oe_akas env) as [|first rest] eqn:Ea; [unfold MakeBaseName in H; rewrite Ea in H; discriminate|].
  rewrite (MakeBaseName_eq env first rest) in H by auto. injection H as <-. rewrite app_length. cbn [List.length].
  assert (Hd : (length (basedir env first n) <= 118)%nat).
  { unfold basedir. pose proof (stripslash_length (oe_outbound env)) as Hs. destruct Hok as [Ho Hr].
    pose proof (otherdomain_spec env first rest n Ea) as Hx. destruct (otherdomain env first n) as [d|].
    - rewrite app_length, firstn_length. destruct Hx as (r & (l1 & l2 & E & _) & -> & _).
      rewrite E in Hr. apply Forall_app in Hr as [_ Hr]. inversion Hr as [|? ? [_ Hl] _]; subst. lia.
    - destruct (zone n =? zone (ak_node first)); [lia|]. rewrite !app_length. unfold hexmin3.
      destruct (zone n <? 4096); rewrite hex_length; cbn [List.length]; simpl; lia. }
  unfold tailname. rewrite !app_length, !hex_length. destruct (point n =? 0); [simpl; lia|].
  rewrite !app_length, hex_length. simpl. lia.
Qed.

(** files of a base name *)
Lemma four_suffix (b b' x y : list Z) : length x = length y -> b ++ x = b' ++ y -> b = b' /\ x = y.
Proof.
  intros Hl E. assert (length b = length b') by (apply (f_equal (@List.length Z)) in E; rewrite !app_length in E; lia).
  apply app_eq_len in E; auto.
Qed.

(** ** Merging packets *)
Lemma merge_raw (h1 : list Z) (m1 : list (list Z)) h2 m2 : length h2 = 58%nat ->
  merge (Some (h1 ++ concat m1 ++ [0; 0])) (h2 ++ concat m2 ++ [0; 0]) = h1 ++ concat (m1 ++ m2) ++ [0; 0].
Proof.
  intros Hl2. unfold merge.
  assert (Eb : skipn 58 (h2 ++ concat m2 ++ [0; 0]) = concat m2 ++ [0; 0]).
  { rewrite skipn_app, Hl2, Nat.sub_diag, (skipn_all2 (n := 58)) by lia. reflexivity. }
  rewrite Eb. set (body := concat m2 ++ [0; 0]).
  assert (Hb : (2 <= length body)%nat) by (unfold body; rewrite app_length; simpl; lia).
  rewrite app_assoc. set (a := h1 ++ concat m1). rewrite app_length. cbn [List.length].
  destruct (Nat.ltb_spec (length a + 2) 2); [unfold a in *; rewrite app_length in *; lia|].
  replace (length a + 2 - 2)%nat with (length a) by lia.
  rewrite firstn_app, Nat.sub_diag, firstn_all, skipn_app, Nat.sub_diag, skipn_all. cbn [firstn skipn app].
  rewrite (skipn_all2 (n := length body)) by (simpl; lia). rewrite !app_nil_r. unfold a, body. rewrite concat_app, <- !app_assoc. reflexivity.
Qed.

Lemma merge_packets h1 m1 p1 h2 m2 p2 : packet_of h1 m1 p1 -> packet_of h2 m2 p2 ->
  merge (Some p1) p2 = h1 ++ concat (m1 ++ m2) ++ [0; 0].
Proof. intros (-> & _ & _) (-> & [Hl2 _] & _). apply merge_raw; auto. Qed.

(** ** Tokens *)
Definition plain (c : Z) : Prop := c <> 32 /\ c <> 9 /\ c <> 10 /\ c <> 92 /\ 1 <= c < 256.
Lemma jbloop_plain maxlen (w : list Z) : forall (pre b rest : list Z), Forall plain w -> (length pre + length w < maxlen)%nat -> (length w < length b)%nat ->
  (rest = [] \/ exists c r, rest = c :: r /\ (c = 32 \/ c = 9 \/ c = 10)) ->
  jbloop 32 9 maxlen (w ++ rest) (Some (pre ++ b), length pre) = (Some (pre ++ w ++ skipn (length w) b), (length pre + length w)%nat, rest).
Proof.
  induction w as [|c w IH]; intros pre b rest F Hm Hb Hr; cbn [app List.length skipn] in *.
  - rewrite Nat.add_0_r. destruct Hr as [->|(c & r & -> & Hc)]; simpl; auto.
    replace ((c =? 32) || (c =? 9) || (c =? 10)) with true by (destruct Hc as [->|[->|Hc]]; simpl; auto; subst; auto). reflexivity.
  - inversion F as [|? ? (H1 & H2 & H3 & H4 & H5) F']; subst. destruct b as [|x b]; [simpl in Hb; lia|]. cbn [jbloop].
    replace ((c =? 32) || (c =? 9) || (c =? 10)) with false by lia. destruct (Z.eqb_spec c 92); [lia|].
    unfold emit. destruct (Nat.ltb_spec (length pre) (maxlen - 1)); [|lia].
    rewrite wr_ok by (rewrite app_length; simpl; lia).
    rewrite upd_split by (rewrite app_length; simpl; lia).
    rewrite firstn_app, Nat.sub_diag, firstn_O, app_nil_r, firstn_all.
    replace (skipn (S (length pre)) (pre ++ x :: b)) with b
      by (rewrite skipn_app, skipn_all2 by lia; replace (S (length pre) - length pre)%nat with 1%nat by lia; reflexivity).
    replace (pre ++ c :: b) with ((pre ++ [c]) ++ b) by (rewrite <- app_assoc; reflexivity).
    replace (S (length pre)) with (length (pre ++ [c])) by (rewrite app_length; simpl; lia).
    rewrite IH; auto; [|rewrite app_length; simpl; lia|simpl in Hb; lia].
    rewrite <- app_assoc. cbn [app]. rewrite app_length. simpl. f_equal. f_equal. lia.
Qed.
(** what is left of a line behind a word *)
Definition behind (rest : list Z) : list Z := match rest with c :: r => if c =? 10 then rest else r | [] => [] end.
Lemma token200_word maxlen (w rest : list Z) : Forall plain w -> w <> [] -> hd 0 w <> 34 -> (length w < maxlen <= 200)%nat ->
  (rest = [] \/ exists c r, rest = c :: r /\ (c = 32 \/ c = 9 \/ c = 10)) ->
  token200 maxlen (w ++ rest) = Some (w, behind rest).
Proof.
  intros F Hne Hq Hl Hr. unfold token200, jbstrcpy.
  assert (Es : skipblank (w ++ rest) = w ++ rest).
  { destruct w as [|c w]; [congruence|]. inversion F as [|? ? (H1 & H2 & _) _]; subst. simpl. replace ((c =? 32) || (c =? 9)) with false by lia. reflexivity. }
  rewrite Es. clear Es.
  replace (match w ++ rest with 34 :: r => (true, r) | _ => (false, w ++ rest) end) with (false, w ++ rest)
    by (destruct w as [|c w]; [congruence|]; cbn [app]; simpl in Hq; destruct c as [|p|p]; auto; do 6 (destruct p as [p|p|]; auto); congruence).
  cbv beta iota. change (Some (repeat 0 200), 0%nat) with (Some ([] ++ repeat 0 200), @List.length Z []).
  rewrite (jbloop_plain maxlen w [] (repeat 0 200) rest) by (auto; rewrite ?repeat_length; simpl; lia).
  cbn [app List.length]. rewrite wr_ok by (rewrite app_length, skipn_length, repeat_length; lia).
  rewrite upd_split by (rewrite app_length, skipn_length, repeat_length; lia).
  rewrite Nat.add_0_l, firstn_app, Nat.sub_diag, firstn_O, app_nil_r, firstn_all.
  rewrite cstr_app_nul by (unfold cstring; revert F; apply Forall_impl; unfold plain; intros; lia).
  f_equal. f_equal. unfold behind. destruct Hr as [->|(c & r & -> & [->|[->| ->]])]; reflexivity.
Qed.
Lemma token200_blank maxlen s : token200 maxlen (32 :: s) = token200 maxlen s.
Proof. reflexivity. Qed.
Lemma dec_plain z : 0 <= z -> Forall plain (dec z).
Proof.
  intros H. pose proof (dec_digits z H) as D. revert D. apply Forall_impl. unfold plain, digit. intros. lia.
Qed.

(** ** Packet names *)
Lemma hex_fine n z : Forall (fun c => 48 <= c <= 57 \/ 97 <= c <= 102) (hex n z).
Proof.
  revert z; induction n as [|n IH]; intros z; cbn [hex]; [constructor|]. apply Forall_app. split; auto. constructor; auto.
  unfold hexdig. assert (0 <= z mod 16 < 16) by zlia. destruct (Z.ltb_spec (z mod 16) 10); lia.
Qed.
Lemma GetFilePart_dir d n : (d = [] \/ exists p, d = p ++ [PATHCHAR]) -> ~ In PATHCHAR n -> GetFilePart (d ++ n) = n.
Proof.
  intros Hd Hn. destruct (GetFilePart_spec (d ++ n)) as [Hns [[Hno E]|(d' & E)]].
  - destruct Hd as [->|(p & ->)]; [exact E|]. exfalso. apply Hno. rewrite !in_app_iff. left. right. left. auto.
  - destruct Hd as [->|(p & ->)].
    + exfalso. apply Hn. cbn [app] in E. rewrite E, in_app_iff. right. left. auto.
    + revert Hns E. generalize (GetFilePart ((p ++ [PATHCHAR]) ++ n)). intros g Hns E. rewrite <- app_assoc in E. cbn [app] in E.
      assert (H : rev n ++ PATHCHAR :: rev p = rev g ++ PATHCHAR :: rev d').
      { apply (f_equal (@rev Z)) in E. rewrite !rev_app_distr in E. cbn [rev] in E. rewrite <- !app_assoc in E. exact E. }
      apply cut_slash in H as [H _]; [|rewrite <- in_rev; auto|rewrite <- in_rev; auto].
      apply (f_equal (@rev Z)) in H. rewrite !rev_involutive in H. auto.
Qed.
Lemma map_id_forall (f : Z -> Z) l : Forall (fun c => f c = c) l -> map f l = l.
Proof. induction 1 as [|c l Hc Hl IH]; cbn [map]; congruence. Qed.
Lemma dec_hd z : 0 <= z -> dec z <> [] /\ hd 0 (dec z) <> 34.
Proof.
  intros H. split; [apply dec_nonempty; auto|]. pose proof (dec_digits z H) as D. pose proof (dec_nonempty z H).
  destruct (dec z); [congruence|]. inversion D; subst. unfold digit in *. simpl. lia.
Qed.
Definition us (c : Z) : Z := if c =? 95 then 32 else c.
Lemma us_dec z : 0 <= z -> map us (dec z) = dec z.
Proof. intros H. apply map_id_forall. pose proof (dec_digits z H) as D. revert D. apply Forall_impl. unfold digit, us. intros c Hc. destruct (Z.eqb_spec c 95); lia. Qed.
Lemma us_hex n z : map us (hex n z) = hex n z.
Proof. apply map_id_forall. pose proof (hex_fine n z) as D. revert D. apply Forall_impl. unfold us. intros c Hc. destruct (Z.eqb_spec c 95); lia. Qed.
Definition typename (type : Z) : list Z := nth (Z.to_nat type) pkttypes [].
Lemma typename_cases type : 0 <= type <= 4 ->
  (typename type = lit "Echomail" /\ type = 0) \/ (typename type = lit "Hold" /\ type = 1) \/ (typename type = lit "Normal" /\ type = 2) \/
  (typename type = lit "Direct" /\ type = 3) \/ (typename type = lit "Crash" /\ type = 4).
Proof.
  intros H. assert (type = 0 \/ type = 1 \/ type = 2 \/ type = 3 \/ type = 4) as [->|[->|[->|[->| ->]]]] by lia; vm_compute; tauto.
Qed.
Lemma finalname_eq num type d : 0 <= type <= 4 ->
  finalname num type d = Some (hex 8 num ++ lit "_" ++ typename type ++ lit "_" ++ dec (zone d) ++ lit "_" ++ dec (net d) ++ lit "_" ++ dec (node d) ++ lit "_" ++
        dec (point d) ++ lit ".newpkt").
Proof.
  intros H. unfold finalname. destruct (Z.ltb_spec type 0); [lia|].
  assert (type = 0 \/ type = 1 \/ type = 2 \/ type = 3 \/ type = 4) as [->|[->|[->|[->| ->]]]] by lia; reflexivity.
Qed.
Lemma some_eq {A} (a b : A) : Some a = Some b -> a = b.
Proof. congruence. Qed.
Lemma finalname_chars num type d name : 0 <= type <= 4 -> valid4d d -> finalname num type d = Some name ->
  ~ In PATHCHAR name /\ (length name <= 48)%nat.
Proof.
  intros Ht (Hz & Hn & Ho & Hp). rewrite finalname_eq by auto. intros H. apply some_eq in H. subst name.
  pose proof (dec_length_u16 _ Hz). pose proof (dec_length_u16 _ Hn). pose proof (dec_length_u16 _ Ho). pose proof (dec_length_u16 _ Hp).
  assert (Hd : forall z, is_u16 z -> ~ In PATHCHAR (dec z)).
  { intros z [Hz0 _] Hin. pose proof (dec_digits z Hz0) as D. rewrite Forall_forall in D. apply D in Hin. unfold digit, PATHCHAR in Hin. lia. }
  assert (Hty : ~ In PATHCHAR (typename type) /\ (length (typename type) <= 8)%nat).
  { destruct (typename_cases type Ht) as [[-> _]|[[-> _]|[[-> _]|[[-> _]|[-> _]]]]]; litc; (split; [intros Hin; simpl in Hin; unfold PATHCHAR in Hin; lia|simpl; lia]). }
  assert (Hu : ~ In PATHCHAR (lit "_")) by (litc; intros Hin; simpl in Hin; unfold PATHCHAR in Hin; lia).
  assert (Hs : ~ In PATHCHAR (lit ".newpkt")) by (litc; intros Hin; simpl in Hin; unfold PATHCHAR in Hin; lia).
  split.
  - rewrite !in_app_iff. pose proof (hex_notslash 8 num). pose proof (Hd _ Hz). pose proof (Hd _ Hn). pose proof (Hd _ Ho). pose proof (Hd _ Hp). tauto.
  - rewrite !app_length, hex_length. change (length (lit "_")) with 1%nat. change (length (lit ".newpkt")) with 7%nat. lia.
Qed.
Lemma parse_final dir num type d name : 0 <= type <= 4 -> valid4d d -> (dir = [] \/ exists p, dir = p ++ [PATHCHAR]) ->
  finalname num type d = Some name -> parsepktname (dir ++ name) = Some (Some (type, d)).
Proof.
  intros Ht Hv Hd Hf. pose proof (finalname_chars _ _ _ _ Ht Hv Hf) as [Hs Hl]. unfold parsepktname.
  rewrite GetFilePart_dir by auto. rewrite firstn_all2 by lia. change (fun c => if c =? 95 then 32 else c) with us.
  rewrite finalname_eq in Hf by auto. apply some_eq in Hf. subst name. destruct Hv as (Hz & Hn & Ho & Hp).
  pose proof (dec_length_u16 _ Hz). pose proof (dec_length_u16 _ Hn). pose proof (dec_length_u16 _ Ho). pose proof (dec_length_u16 _ Hp).
  unfold is_u16 in *.
  rewrite !map_app, us_hex, !us_dec by lia. change (map us (lit "_")) with [32].
  change (map us (lit ".newpkt")) with (lit ".newpkt").
  rewrite token200_word; [|pose proof (hex_fine 8 num) as D; revert D; apply Forall_impl; unfold plain; intros; lia
    |intros E; apply (f_equal (@List.length Z)) in E; rewrite hex_length in E; discriminate
    |pose proof (hex_fine 8 num) as D; pose proof (hex_length 8 num); destruct (hex 8 num); [discriminate|]; inversion D; subst; simpl; lia
    |rewrite hex_length; lia|right; eexists; eexists; split; [reflexivity|auto]].
  cbn [behind app]. change (32 =? 10) with false. cbv iota. cbn [obind fst snd].
  assert (Hty : forall r, token200 100 (map us (typename type) ++ 32 :: r) = Some (typename type, r) /\
     match (match flavour (typename type) with Some t => Some t | None => if streqi (typename type) (lit "Echomail") then Some PKTS_ECHOMAIL else None end) with
     | Some t => t = type | None => False end).
  { intros r. assert (map us (typename type) = typename type) as Em.
    { destruct (typename_cases type Ht) as [[-> _]|[[-> _]|[[-> _]|[[-> _]|[-> _]]]]]; reflexivity. }
    rewrite Em. split.
    - rewrite token200_word; [reflexivity| | | | |right; exists 32, r; auto].
      all: destruct (typename_cases type Ht) as [[-> _]|[[-> _]|[[-> _]|[[-> _]|[-> _]]]]]; litc; try discriminate; try (simpl; lia);
        repeat constructor; unfold plain; lia.
    - destruct (typename_cases type Ht) as [[-> ->]|[[-> ->]|[[-> ->]|[[-> ->]|[-> ->]]]]]; vm_compute; auto. }
  match goal with |- context [map us (typename type) ++ 32 :: ?r] => destruct (Hty r) as [E1 E2]; rewrite E1; clear Hty E1 end.
  cbn [obind fst snd].
  destruct (match flavour (typename type) with Some t => Some t | None => _ end) as [t|]; [|contradiction]. subst t.
  assert (Hdec : forall z r, 0 <= z -> (length (dec z) <= 5)%nat -> token200 100 (dec z ++ 32 :: r) = Some (dec z, r)).
  { intros z r Hz0 Hz5. rewrite token200_word; [reflexivity|apply dec_plain; auto|apply dec_hd; auto|apply dec_hd; auto|lia|right; exists 32, r; auto]. }
  rewrite Hdec by lia. cbn [obind fst snd]. rewrite Hdec by lia. cbn [obind fst snd]. rewrite Hdec by lia. cbn [obind fst snd].
  rewrite <- (app_nil_r (dec (point d) ++ lit ".newpkt")).
  rewrite token200_word; [|apply Forall_app; split; [apply dec_plain; lia|litc; repeat constructor; unfold plain; lia]
    |intros E; apply app_eq_nil in E as [E _]; apply dec_nonempty in E; lia
    |pose proof (dec_hd (point d)) as [Hne Hh]; [lia|]; destruct (dec (point d)); [congruence|exact Hh]
    |rewrite app_length; change (length (lit ".newpkt")) with 7%nat; lia|auto].
  cbn [obind fst snd]. rewrite !atoi_dec by lia. rewrite atoi_dec_app by (lia || reflexivity).
  unfold u16. rewrite !Z.mod_small by lia. destruct d; reflexivity.
Qed.

(** ** Packet numbers *)
Definition room (lastt serial : Z) (ts : list Z) : Prop :=
  0 <= serial /\ nondecreasing (lastt :: ts) /\ serial + Z.of_nat (count lastt ts) < 256 /\ forall t, t <> lastt -> (count t ts <= 256)%nat.
Lemma nondec_cons a b l : nondecreasing (a :: b :: l) -> a <= b /\ nondecreasing (b :: l).
Proof. intros [H1 H2]. auto. Qed.
Lemma count_cons t a l : count t (a :: l) = ((if (t =? a)%Z then 1 else 0) + count t l)%nat.
Proof. unfold count. cbn [filter]. destruct (t =? a); reflexivity. Qed.
Lemma nondec_ge l : forall a, nondecreasing (a :: l) -> Forall (fun t => a <= t) l.
Proof.
  induction l as [|b l IH]; intros a H; constructor; apply nondec_cons in H as [H1 H2]; auto.
  apply IH in H2. revert H2. apply Forall_impl. intros; lia.
Qed.
Lemma nondec_drop l1 : forall a l2, nondecreasing (a :: l1 ++ l2) -> nondecreasing (a :: l2).
Proof.
  induction l1 as [|b l1 IH]; intros a l2 H; auto. cbn [app] in H. apply nondec_cons in H as [H1 H2]. apply IH in H2.
  destruct l2 as [|c l2]; [exact I|]. apply nondec_cons in H2 as [H2 H3]. split; [lia|exact H3].
Qed.
Lemma count_app t l1 l2 : count t (l1 ++ l2) = (count t l1 + count t l2)%nat.
Proof. unfold count. rewrite filter_app, app_length. reflexivity. Qed.
Lemma room_drop l1 lastt serial l2 : room lastt serial (l1 ++ l2) -> room lastt serial l2.
Proof.
  intros (H1 & H2 & H3 & H4). split; auto. split; [eapply nondec_drop; eauto|]. rewrite count_app in H3. split; [lia|].
  intros t Ht. specialize (H4 t Ht). rewrite count_app in H4. lia.
Qed.
Definition stepserial (t lastt serial : Z) : Z := let s := if t =? lastt then serial + 1 else 0 in if s =? 256 then 0 else s.
Lemma room_step lastt serial t ts : room lastt serial (t :: ts) ->
  room t (stepserial t lastt serial) ts /\ (lastt < t \/ (lastt = t /\ serial < stepserial t lastt serial)) /\ 0 <= stepserial t lastt serial < 256.
Proof.
  intros (H1 & H2 & H3 & H4). apply nondec_cons in H2 as [H2 H5]. unfold stepserial. rewrite count_cons in H3. cbv zeta.
  destruct (Z.eqb_spec t lastt) as [->|Hne].
  - rewrite Z.eqb_refl in H3. destruct (Z.eqb_spec (serial + 1) 256); [lia|]. split; [|lia].
    split; [lia|]. split; auto. split; [lia|]. intros t Ht. specialize (H4 t Ht). rewrite count_cons in H4. lia.
  - change (0 =? 256) with false. cbv iota. split; [|lia]. split; [lia|]. split; auto. split.
    + specialize (H4 t Hne). rewrite count_cons, Z.eqb_refl in H4. lia.
    + intros t' Ht'. destruct (Z.eqb_spec t' lastt) as [->|Hl]; [|specialize (H4 t' Hl); rewrite count_cons in H4; lia].
      destruct (Z.eqb_spec lastt t); lia.
Qed.
Lemma pktnum_spec taken ts : forall lastt serial num t s rest, room lastt serial (ts ++ rest) -> pktnum taken ts lastt serial = Some (num, t, s) ->
  taken num = false /\ num = u32 (t * 256 + s) /\ In t ts /\ 0 <= s < 256 /\ (lastt < t \/ (lastt = t /\ serial < s)) /\ room t s rest.
Proof.
  induction ts as [|t1 ts IH]; intros lastt serial num t s rest R E; [discriminate|]. cbn [app] in R. apply room_step in R as (R & Hlex & Hs).
  cbn [pktnum] in E. change (let s0 := if t1 =? lastt then serial + 1 else 0 in if s0 =? 256 then 0 else s0) with (stepserial t1 lastt serial) in E.
  cbv zeta in E. change (if (if t1 =? lastt then serial + 1 else 0) =? 256 then 0 else if t1 =? lastt then serial + 1 else 0) with (stepserial t1 lastt serial) in E.
  destruct (taken (u32 (t1 * 256 + stepserial t1 lastt serial))) eqn:Et.
  - destruct (IH _ _ _ _ _ _ R E) as (P1 & P2 & P3 & P4 & P5 & P6). split; auto. split; auto. split; [right; auto|]. split; auto. split; [lia|auto].
  - assert (num = u32 (t1 * 256 + stepserial t1 lastt serial) /\ t = t1 /\ s = stepserial t1 lastt serial) as (-> & -> & ->) by (repeat split; congruence).
    split; auto. split; auto. split; [left; auto|]. split; auto. split; auto. eapply room_drop; eauto.
Qed.
Lemma made_spec calls : forall t0 lastt serial nums, made calls lastt serial = Some nums -> 
  room lastt serial (concat (map snd calls)) -> Forall (fun t => t0 <= t < t0 + 16777216) (concat (map snd calls)) ->
  NoDup nums /\ Forall2 (fun c n => fst c n = false) calls nums /\
  Forall (fun n => exists t s, n = u32 (t * 256 + s) /\ 0 <= s < 256 /\ t0 <= t < t0 + 16777216 /\ (lastt < t \/ (lastt = t /\ serial < s))) nums.
Proof.
  induction calls as [|[taken ts] r IH]; intros t0 lastt serial nums E R W; cbn [made] in E.
  - inversion E; subst. repeat split; constructor.
  - destruct (pktnum taken ts lastt serial) as [[[num t] s]|] eqn:Ep; [|discriminate].
    destruct (made r t s) as [nums'|] eqn:Em; [|discriminate]. assert (nums = num :: nums') by (cbn in E; congruence). subst nums. clear E.
    cbn [map concat snd] in R, W. apply Forall_app in W as [W1 W2].
    destruct (pktnum_spec _ _ _ _ _ _ _ _ R Ep) as (P1 & P2 & P3 & P4 & P5 & P6).
    destruct (IH t0 t s nums' Em P6 W2) as (I1 & I2 & I3).
    assert (Ht : t0 <= t < t0 + 16777216) by (rewrite Forall_forall in W1; apply W1; auto).
    split; [|split; [constructor; auto|]].
    + constructor; auto. intros Hin. rewrite Forall_forall in I3. destruct (I3 num Hin) as (t' & s' & En & Hs' & Ht' & Hl).
      rewrite P2 in En. unfold u32 in En. assert (exists k, (t' * 256 + s') - (t * 256 + s) = k * 4294967296) as (k & Hk).
      { exists ((t' * 256 + s') / 4294967296 - (t * 256 + s) / 4294967296). zlia. }
      assert (k = 0) by lia. subst k. lia.
    + constructor; [exists t, s; auto|]. revert I3. apply Forall_impl. intros n (t' & s' & En & Hs' & Ht' & Hl). exists t', s'. split; auto. split; auto. split; auto. lia.
Qed.

(** ** Flow files *)
Lemma streqi_iff a b : streqi a b = true <-> map tolower a = map tolower b.
Proof. unfold streqi. apply streq_eq. Qed.
Lemma lines_ne a : lines (a ++ [10]) <> [].
Proof. destruct a as [|c a]; cbn [app lines]; [discriminate|]. destruct (c =? 10); [discriminate|]. destruct (lines (a ++ [10])); discriminate. Qed.
Lemma lines_cut a b : lines (a ++ 10 :: b) = lines (a ++ [10]) ++ lines b.
Proof.
  induction a as [|c a IH]; cbn [app lines]; [reflexivity|]. destruct (c =? 10); [rewrite IH; reflexivity|].
  rewrite IH. pose proof (lines_ne a). destruct (lines (a ++ [10])); [congruence|]. reflexivity.
Qed.
Lemma lines_one x : ~ In 10 x -> lines (x ++ [10]) = [x].
Proof.
  induction x as [|c x IH]; intros H; cbn [app lines]; [reflexivity|]. destruct (Z.eqb_spec c 10) as [->|E]; [exfalso; apply H; left; auto|].
  rewrite IH by (intros Hin; apply H; right; auto). reflexivity.
Qed.
Lemma lines_add s x : whole_lines s -> ~ In 10 x -> lines (s ++ x ++ [10]) = lines s ++ [x].
Proof.
  intros [->|(r & ->)] Hx; [cbn [app]; rewrite lines_one by auto; reflexivity|].
  rewrite <- (app_assoc r). cbn [app]. rewrite (lines_cut r (x ++ [10])), (lines_one x) by auto. reflexivity.
Qed.
Lemma whole_split s : whole_lines s -> s = [] \/ exists l r, s = l ++ 10 :: r /\ ~ In 10 l /\ whole_lines r /\ lines s = l :: lines r.
Proof.
  intros [->|(r & ->)]; [auto|]. right. induction r as [|c r IH]; cbn [app].
  - exists [], []. split; auto. split; [intros []|]. split; [left; auto|reflexivity].
  - destruct (Z.eqb_spec c 10) as [->|Hc].
    + exists [], (r ++ [10]). split; auto. split; [intros []|]. split; [right; eauto|reflexivity].
    + destruct IH as (l & r' & E & Hl & Hw & El). exists (c :: l), r'. rewrite E. split; auto. split; [intros [H|H]; [congruence|auto]|]. split; auto.
      cbn [app lines]. rewrite <- E, El. destruct (Z.eqb_spec c 10); [lia|]. reflexivity.
Qed.
Lemma fgets_line l : forall n r, ~ In 10 l -> (length l < n)%nat -> fgets n (l ++ 10 :: r) = (l ++ [10], r).
Proof.
  induction l as [|c l IH]; intros n r Hl Hn; (destruct n as [|n]; [simpl in Hn; lia|]); cbn [app fgets]; [reflexivity|].
  destruct (Z.eqb_spec c 10) as [->|E]; [exfalso; apply Hl; left; auto|].
  rewrite IH by (simpl in Hn; try lia; intros H; apply Hl; right; auto). reflexivity.
Qed.
Lemma cstr_noz l : ~ In 0 l -> cstr l = l.
Proof.
  induction l as [|c l IH]; intros H; [reflexivity|]. cbn [cstr]. destruct (Z.eqb_spec c 0) as [->|E]; [exfalso; apply H; left; auto|].
  rewrite IH by (intros H'; apply H; right; auto). reflexivity.
Qed.
Lemma striptrail_ws l ws : Forall (fun c => isstrip c = true) ws -> striptrail (l ++ ws) = striptrail l.
Proof.
  intros F. assert (E0 : striptrail ws = []) by (induction F as [|c ws Hc F IH]; [reflexivity|cbn [striptrail]; rewrite IH, Hc; reflexivity]).
  induction l as [|c l IH]; cbn [app striptrail]; [exact E0|]. rewrite IH. reflexivity.
Qed.
Lemma striptrail_split l : exists ws, l = striptrail l ++ ws /\ Forall (fun c => isstrip c = true) ws.
Proof.
  induction l as [|c l (ws & E & F)]; [exists []; auto|]. cbn [striptrail]. destruct (striptrail l) as [|x y] eqn:Es.
  - cbn [app] in E. subst ws. destruct (isstrip c) eqn:Ec.
    + exists (c :: l). split; auto.
    + exists l. split; auto.
  - exists ws. split; [|auto]. rewrite E at 1. reflexivity.
Qed.
Lemma striptrail_keep l : l <> [] -> isstrip (last l 0) = false -> striptrail l = l.
Proof.
  intros Hne Hl. destruct (exists_last Hne) as (a & c & ->). rewrite last_last in Hl. clear Hne.
  induction a as [|x a IH]; cbn [app striptrail]; [rewrite Hl; reflexivity|]. rewrite IH.
  destruct (a ++ [c]) as [|y z] eqn:E; [destruct a; discriminate|]. reflexivity.
Qed.
Lemma crlf_strip l : striptrail (crlf (l ++ [10])) = striptrail l.
Proof.
  unfold crlf. rewrite rev_app_distr. cbn [rev app]. destruct (rev l) as [|b r] eqn:E.
  - apply (f_equal (@rev Z)) in E. rewrite rev_involutive in E. subst l. reflexivity.
  - apply (f_equal (@rev Z)) in E. rewrite rev_involutive in E. cbn [rev] in E. change (10 =? 10) with true. cbn [andb].
    destruct (Z.eqb_spec b 13) as [->|Hb].
    + rewrite striptrail_ws by (repeat constructor). rewrite E, striptrail_ws by (repeat constructor). reflexivity.
    + apply striptrail_ws. repeat constructor.
Qed.
Lemma crlf_ne l : crlf (l ++ [10]) <> [].
Proof.
  unfold crlf. rewrite rev_app_distr. cbn [rev app]. destruct (rev l) as [|b r]; [destruct l; discriminate|].
  destruct ((10 =? 10) && (b =? 13)); [destruct (rev r); discriminate|destruct l; discriminate].
Qed.
Lemma osFGets_line max l r : ~ In 10 l -> ~ In 0 l -> (length l < max - 1)%nat -> osFGets max (l ++ 10 :: r) = Some (crlf (l ++ [10]), r).
Proof.
  intros H10 H0 Hl. unfold osFGets. destruct (l ++ 10 :: r) as [|x y] eqn:E; [destruct l; discriminate|]. rewrite <- E.
  rewrite fgets_line by auto. rewrite cstr_noz by (intros H; apply in_app_or in H as [H|[H|[]]]; [auto|discriminate]).
  pose proof (crlf_ne l). destruct (crlf (l ++ [10])); [congruence|reflexivity].
Qed.
Lemma flow_ok_tail l r : ~ In 10 l -> whole_lines r -> flow_ok (l ++ 10 :: r) -> lines (l ++ 10 :: r) = l :: lines r -> flow_ok r /\ (length l <= 198)%nat /\ ~ In 0 l.
Proof.
  intros Hl Hw (H1 & _ & H3) E. rewrite E in H3. inversion H3; subst. apply Forall_app in H1 as [H1 H1']. inversion H1'; subst.
  split; [split; auto|]. split; auto. intros Hin. rewrite Forall_forall in H1. apply H1 in Hin. lia.
Qed.
Lemma inflow_spec file : forall fuel s, flow_ok s -> (length s < fuel)%nat -> inflow fuel file s = existsb (fun l => streqi (flowname l) file) (lines s).
Proof.
  induction fuel as [|f IH]; intros s Hok Hf; [lia|]. pose proof Hok as (_ & Hw & _).
  destruct (whole_split s Hw) as [->|(l & r & -> & Hl & Hr & El)]; [reflexivity|].
  destruct (flow_ok_tail l r Hl Hr Hok El) as (Hokr & Hlen & H0).
  cbn [inflow]. rewrite osFGets_line by (auto; simpl; lia). rewrite El. cbn [existsb].
  rewrite IH by (auto; rewrite app_length in Hf; simpl in Hf; lia).
  f_equal. unfold flowname. rewrite crlf_strip. reflexivity.
Qed.
Lemma tolower_ge c d : tolower c = tolower d -> 32 < d < 128 -> 32 < c < 128.
Proof. unfold tolower. intros. repeat match goal with |- context [if ?b then _ else _] => destruct b eqn:? | H : context [if ?b then _ else _] |- _ => destruct b eqn:? end; lia. Qed.
Lemma tolower_flag c d : tolower c = tolower d -> In c [35; 126; 94; 45] -> c = d.
Proof. unfold tolower. intros H Hin. destruct ((65 <=? c) && (c <=? 90)) eqn:E1, ((65 <=? d) && (d <=? 90)) eqn:E2; simpl in Hin; lia. Qed.
Lemma lower_chars nm file : map tolower nm = map tolower file -> Forall (fun c => 32 < c < 128) file -> Forall (fun c => 32 < c < 128) nm.
Proof.
  revert file; induction nm as [|c nm IH]; intros [|d file] E F; cbn [map] in E; try discriminate; constructor; inversion F; subst; inversion E.
  - eapply tolower_ge; eauto.
  - eapply IH; eauto.
Qed.
Lemma strip1_flag c f x : opt_flag c f -> (f = [] -> hd 0 x <> c \/ x = []) -> strip1 c (f ++ x) = x.
Proof.
  intros [->| ->] H; cbn [app].
  - destruct x as [|y x]; [reflexivity|]. unfold strip1. destruct (H eq_refl) as [H'|H']; [|discriminate]. simpl in H'. destruct (Z.eqb_spec y c); [congruence|reflexivity].
  - unfold strip1. rewrite Z.eqb_refl. reflexivity.
Qed.
Lemma strip1_split c x : exists f, opt_flag c f /\ x = f ++ strip1 c x.
Proof.
  destruct x as [|y x]; [exists []; split; [left; auto|reflexivity]|]. unfold strip1. destruct (Z.eqb_spec y c) as [->|E].
  - exists [c]. split; [right; auto|reflexivity].
  - exists []. split; [left; auto|reflexivity].
Qed.
Lemma flow_entry file l : flowable file -> Forall (fun c => 0 < c < 128) l -> (streqi (flowname l) file = true <-> entry_for file l).
Proof.
  intros (Hne & Hch & _ & Hhd) Hl. rewrite streqi_iff. split.
  - intros E. unfold flowname in E. destruct (striptrail_split l) as (ws & El & Hws).
    destruct (strip1_split 35 (striptrail l)) as (f1 & F1 & E1). destruct (strip1_split 126 (strip1 35 (striptrail l))) as (f2 & F2 & E2).
    destruct (strip1_split 94 (strip1 126 (strip1 35 (striptrail l)))) as (f3 & F3 & E3).
    destruct (strip1_split 45 (strip1 94 (strip1 126 (strip1 35 (striptrail l))))) as (f4 & F4 & E4).
    exists f1, f2, f3, f4, (flowname l), ws. split; [|repeat (split; [assumption|])].
    + unfold flowname. rewrite (app_assoc f4), <- E4, (app_assoc f3), <- E3, (app_assoc f2), <- E2, (app_assoc f1), <- E1. exact El.
    + rewrite El in Hl. apply Forall_app in Hl as [_ Hl]. rewrite Forall_forall in *. intros c Hc. specialize (Hl c Hc). specialize (Hws c Hc). unfold isstrip in Hws. lia.
  - intros (f1 & f2 & f3 & f4 & nm & ws & -> & F1 & F2 & F3 & F4 & E & Hws).
    assert (Hnm : nm <> []) by (intros ->; destruct file; [congruence|discriminate]).
    pose proof (lower_chars _ _ E Hch) as Hnc.
    assert (Hh : forall c, In c [35; 126; 94; 45] -> hd 0 nm <> c).
    { intros c Hc Eh. destruct nm as [|x nm]; [congruence|]. destruct file as [|y file]; [congruence|]. cbn [map] in E. inversion E as [[E1 E2]].
      cbn [hd] in *. subst x. apply Hhd. rewrite <- (tolower_flag c y E1 Hc). exact Hc. }
    unfold flowname. rewrite !app_assoc. rewrite striptrail_ws by (revert Hws; apply Forall_impl; unfold isstrip; intros; lia).
    rewrite striptrail_keep.
    2: { intros H. apply app_eq_nil in H as [_ H]. auto. }
    2: { destruct (exists_last Hnm) as (a & c & Ec). rewrite Ec, app_assoc, last_last. rewrite Ec in Hnc. apply Forall_app in Hnc as [_ Hnc]. inversion Hnc; subst. unfold isstrip. lia. }
    rewrite <- !app_assoc.
    rewrite (strip1_flag 35 f1) by (auto; intros ->; left; destruct F2 as [->| ->], F3 as [->| ->], F4 as [->| ->]; cbn [app hd]; try discriminate; apply Hh; simpl; auto).
    rewrite (strip1_flag 126 f2) by (auto; intros ->; left; destruct F3 as [->| ->], F4 as [->| ->]; cbn [app hd]; try discriminate; apply Hh; simpl; auto).
    rewrite (strip1_flag 94 f3) by (auto; intros ->; left; destruct F4 as [->| ->]; cbn [app hd]; try discriminate; apply Hh; simpl; auto).
    rewrite (strip1_flag 45 f4) by (auto; intros ->; left; apply Hh; simpl; auto). exact E.
Qed.
Lemma lines_chars s : Forall (fun c => 0 < c < 128) s -> forall l, In l (lines s) -> Forall (fun c => 0 < c < 128) l.
Proof.
  induction s as [|c s IH]; intros H1 l Hin; [destruct Hin|]. inversion H1; subst. cbn [lines] in Hin.
  destruct (c =? 10); [destruct Hin as [<-|Hin]; [constructor|auto]|]. destruct (lines s) as [|x y] eqn:E.
  - destruct Hin as [<-|[]]. repeat constructor; lia.
  - destruct Hin as [<-|Hin]; [constructor; [lia|apply IH; [auto|left; auto]]|apply IH; [auto|right; auto]].
Qed.
Lemma filter_once {A} (p : A -> bool) l : (length (filter p l) <= 1)%nat -> forall i j a b,
  nth_error l i = Some a -> nth_error l j = Some b -> p a = true -> p b = true -> i = j.
Proof.
  assert (Hno : forall l i a, length (filter p l) = 0%nat -> nth_error l i = Some a -> p a = true -> False).
  { intros l0 i a Hl Hi Ha. apply nth_error_In in Hi. assert (Hin : In a (filter p l0)) by (apply filter_In; auto).
    destruct (filter p l0); [destruct Hin|discriminate]. }
  induction l as [|x l IH]; intros Hl i j a b Hi Hj Ha Hb; [destruct i; discriminate|]. cbn [filter] in Hl.
  destruct i as [|i], j as [|j]; auto; cbn [nth_error] in *.
  - assert (x = a) by congruence. subst x. rewrite Ha in Hl. cbn [List.length] in Hl. exfalso. eapply (Hno l j b); eauto. lia.
  - assert (x = b) by congruence. subst x. rewrite Hb in Hl. cbn [List.length] in Hl. exfalso. eapply (Hno l i a); eauto. lia.
  - f_equal. eapply IH; eauto. destruct (p x); cbn [List.length] in Hl; lia.
Qed.
(** the line that is added *)
Definition newline (flags : Z) (file : list Z) (mode : Z) : list Z := mode_flag mode ++ file ++ (if flag flags CFG_FLOWCRLF then [13] else []).
Lemma addflow_eq flags s file mode : flow_ok s -> flowable file ->
  (exists l, In l (lines s) /\ entry_for file l) /\ addflow flags s file mode = s \/
  (forall l, In l (lines s) -> ~ entry_for file l) /\ addflow flags s file mode = s ++ newline flags file mode ++ [10].
Proof.
  intros Hok Hf. unfold addflow. rewrite inflow_spec by (auto; lia).
  assert (Hc : forall l, In l (lines s) -> Forall (fun c => 0 < c < 128) l) by (apply lines_chars; apply Hok).
  destruct (existsb (fun l => streqi (flowname l) file) (lines s)) eqn:E.
  - left. split; [|reflexivity]. apply existsb_exists in E as (l & Hin & E). exists l. split; auto. apply flow_entry; auto.
  - right. split.
    + intros l Hin He. apply flow_entry in He; auto. assert (existsb (fun l => streqi (flowname l) file) (lines s) = true) by (apply existsb_exists; eauto). congruence.
    + unfold newline, mode_flag, flowprefix, FLOW_TRUNC, FLOW_DELETE. destruct (mode =? 1), (mode =? 2), (flag flags CFG_FLOWCRLF); litc; rewrite <- ?app_assoc; reflexivity.
Qed.
Lemma newline_entry flags file mode : entry_for file (newline flags file mode).
Proof.
  unfold newline, mode_flag. set (w := if flag flags CFG_FLOWCRLF then [13] else []).
  assert (Hw : Forall (fun c => c < 33) w) by (unfold w; destruct (flag flags CFG_FLOWCRLF); repeat constructor).
  destruct (mode =? 1); [exists [35], [], [], [], file, w|destruct (mode =? 2); [exists [], [], [94], [], file, w|exists [], [], [], [], file, w]];
  unfold opt_flag; repeat split; auto.
Qed.
Lemma newline_ok flags file mode : flowable file -> ~ In 10 (newline flags file mode) /\ Forall (fun c => 0 < c < 128) (newline flags file mode) /\ (length (newline flags file mode) <= 198)%nat.
Proof.
  intros (_ & Hc & Hl & _).
  assert (F : Forall (fun c => 0 < c < 128 /\ c <> 10) (newline flags file mode)).
  { unfold newline, mode_flag. apply Forall_app. split; [destruct (mode =? 1); [|destruct (mode =? 2)]; repeat constructor; lia|].
    apply Forall_app. split; [revert Hc; apply Forall_impl; intros; lia|]. destruct (flag flags CFG_FLOWCRLF); repeat constructor; lia. }
  split; [|split].
  - intros H. rewrite Forall_forall in F. apply F in H. lia.
  - revert F. apply Forall_impl. tauto.
  - unfold newline, mode_flag. rewrite !app_length. destruct (mode =? 1), (mode =? 2), (flag flags CFG_FLOWCRLF); simpl; lia.
Qed.
Lemma addflow_ok flags s file mode : flow_ok s -> flowable file -> flow_ok (addflow flags s file mode) /\
  lines (addflow flags s file mode) = lines s ++ (if existsb (fun l => streqi (flowname l) file) (lines s) then [] else [newline flags file mode]).
Proof.
  intros Hok Hf. pose proof (newline_ok flags file mode Hf) as (N1 & N2 & N3). pose proof Hok as (H1 & H2 & H3).
  assert (El := lines_add s (newline flags file mode) H2 N1).
  unfold addflow. rewrite inflow_spec by (auto; lia). destruct (existsb (fun l => streqi (flowname l) file) (lines s)); [rewrite app_nil_r; auto|].
  replace (flowprefix mode ++ file ++ (if flag flags CFG_FLOWCRLF then [13; 10] else [10])) with (newline flags file mode ++ [10])
    by (unfold newline, mode_flag, flowprefix, FLOW_TRUNC, FLOW_DELETE; destruct (mode =? 1), (mode =? 2), (flag flags CFG_FLOWCRLF); litc; rewrite <- ?app_assoc; reflexivity).
  split; [|exact El]. split; [|split].
  - apply Forall_app. split; auto. apply Forall_app. split; auto. repeat constructor; lia.
  - right. exists (s ++ newline flags file mode). rewrite app_assoc. reflexivity.
  - rewrite El. apply Forall_app. split; auto.
Qed.

(** ** Orphans *)
Lemma last_diff (a b : list Z) x y : x <> y -> a ++ [x] <> b ++ [y].
Proof. intros H E. apply app_inj_tail in E as [_ E]. auto. Qed.
Lemma flow_of_eq base type : flowfile base type = flow_of base type.
Proof. unfold flowfile, flow_of, flowletter, PKTS_HOLD, PKTS_DIRECT, PKTS_CRASH. destruct (type =? 1), (type =? 3), (type =? 4); reflexivity. Qed.
Lemma flow_of_last base type : exists p, flow_of base type = p ++ [111].
Proof.
  unfold flow_of. set (m := if type =? 1 then _ else _). exists (base ++ lit "." ++ m ++ [108]). rewrite <- !app_assoc. reflexivity.
Qed.
Lemma flow_not_bsy base base' type : flow_of base type <> base' ++ lit ".bsy".
Proof. destruct (flow_of_last base type) as (p & ->). change (lit ".bsy") with ([46; 98; 115] ++ [121]). rewrite app_assoc. apply last_diff. discriminate. Qed.
Lemma flow_not_orphan base type file : flow_of base type <> file ++ lit ".orphan".
Proof. destruct (flow_of_last base type) as (p & ->). change (lit ".orphan") with ([46; 111; 114; 112; 104; 97] ++ [110]). rewrite app_assoc. apply last_diff. discriminate. Qed.
Lemma orphan_not_bsy base file : file ++ lit ".orphan" <> base ++ lit ".bsy".
Proof.
  change (lit ".orphan") with ([46; 111; 114; 112; 104; 97] ++ [110]). change (lit ".bsy") with ([46; 98; 115] ++ [121]). rewrite !app_assoc. apply last_diff. discriminate.
Qed.
Definition priname (type : Z) : list Z := nth (Z.to_nat type) prinames [].
Definition modeword (mode : Z) : list Z := if mode =? 1 then lit " Truncate" else if mode =? 2 then lit " Delete" else [].
Lemma orphantext_eq type n mode : 0 <= type <= 4 ->
  orphantext type n mode = Some (priname type ++ [32] ++ WriteNode4D n ++ modeword mode ++ [10]).
Proof.
  intros H. unfold orphantext, WriteNode4D, modeword, FLOW_TRUNC, FLOW_DELETE. destruct (Z.ltb_spec type 0); [lia|].
  replace (nth_error prinames (Z.to_nat type)) with (Some (priname type))
    by (assert (type = 0 \/ type = 1 \/ type = 2 \/ type = 3 \/ type = 4) as [->|[->|[->|[->| ->]]]] by lia; reflexivity).
  cbn [obind]. change (lit " ") with [32]. rewrite <- !app_assoc. reflexivity.
Qed.
Lemma priname_props type : 0 <= type <= 4 -> Forall plain (priname type) /\ priname type <> [] /\ hd 0 (priname type) <> 34 /\ (length (priname type) <= 6)%nat /\
  exists t, flavour (priname type) = Some t /\ forall base, flow_of base t = flow_of base type.
Proof.
  intros H. assert (type = 0 \/ type = 1 \/ type = 2 \/ type = 3 \/ type = 4) as [->|[->|[->|[->| ->]]]] by lia;
  (split; [match goal with |- Forall plain ?l => let l' := eval vm_compute in l in change l with l' end; repeat constructor; unfold plain; lia|]; split; [discriminate|]; split; [discriminate|]; split; [vm_compute; lia|]; eexists; split; [vm_compute; reflexivity|]; reflexivity).
Qed.
Lemma write4d_plain n : valid4d n -> Forall plain (WriteNode4D n) /\ WriteNode4D n <> [] /\ hd 0 (WriteNode4D n) <> 34 /\ (length (WriteNode4D n) <= 23)%nat.
Proof.
  intros (Hz & Hn & Ho & Hp). unfold WriteNode4D. pose proof (dec_length_u16 _ Hz). pose proof (dec_length_u16 _ Hn). pose proof (dec_length_u16 _ Ho). pose proof (dec_length_u16 _ Hp).
  unfold is_u16 in *. split; [|split; [|split]].
  - repeat (apply Forall_app; split); try (apply dec_plain; lia); litc; repeat constructor; unfold plain; lia.
  - intros E. apply app_eq_nil in E as [E _]. apply dec_nonempty in E; lia.
  - pose proof (dec_hd (zone n)) as [H3 H4]; [lia|]. destruct (dec (zone n)); [congruence|exact H4].
  - rewrite !app_length. litc. simpl. lia.
Qed.
Lemma no0 l : Forall plain l -> ~ In 0 l /\ ~ In 10 l.
Proof. intros F. rewrite Forall_forall in F. split; intros H; apply F in H; unfold plain in H; lia. Qed.
Lemma orphan_read type n mode : 0 <= type <= 4 -> valid4d n -> mode = 0 \/ mode = 1 \/ mode = 2 ->
  exists t l a b c, orphantext type n mode = Some t /\ osFGets 100 t = Some (l, []) /\
    token200 100 l = Some (priname type, a) /\ token200 100 a = Some (WriteNode4D n, b) /\ token200 100 b = Some c /\
    (if streqi (fst c) (lit "Truncate") then FLOW_TRUNC else if streqi (fst c) (lit "Delete") then FLOW_DELETE else FLOW_NONE) = mode.
Proof.
  intros Ht Hv Hm. destruct (priname_props type Ht) as (P1 & P2 & P3 & P4 & _). destruct (write4d_plain n Hv) as (W1 & W2 & W3 & W4).
  set (line := priname type ++ [32] ++ WriteNode4D n ++ modeword mode).
  assert (Hmw : ~ In 0 (modeword mode) /\ ~ In 10 (modeword mode) /\ (length (modeword mode) <= 9)%nat).
  { destruct Hm as [->|[->| ->]]; (split; [|split]); try (vm_compute; lia); intros H; vm_compute in H; intuition discriminate. }
  destruct (no0 _ P1) as [Q1 Q2]. destruct (no0 _ W1) as [Q3 Q4]. destruct Hmw as (Q5 & Q6 & Q7).
  assert (E10 : ~ In 10 line) by (unfold line; rewrite !in_app_iff; intros [H|[[H|[]]|[H|H]]]; auto; discriminate).
  assert (E0 : ~ In 0 line) by (unfold line; rewrite !in_app_iff; intros [H|[[H|[]]|[H|H]]]; auto; discriminate).
  assert (El : (length line <= 39)%nat) by (unfold line; rewrite !app_length; simpl; lia).
  assert (Ecr : crlf (line ++ [10]) = line ++ [10]).
  { unfold crlf. rewrite rev_app_distr. cbn [rev app]. destruct (rev line) as [|x r] eqn:E; [reflexivity|].
    destruct (Z.eqb_spec x 13) as [->|]; [|rewrite andb_false_r; reflexivity]. exfalso.
    assert (Hin : In 13 line) by (apply in_rev; rewrite E; left; auto). unfold line in Hin. rewrite !in_app_iff in Hin.
    assert (N13 : forall l, Forall plain l -> Forall (fun c => c <> 13) l -> ~ In 13 l) by (intros l _ F Hi; rewrite Forall_forall in F; apply F in Hi; lia).
    destruct Hin as [Hi|[[Hi|[]]|[Hi|Hi]]]; try discriminate.
    - assert (type = 0 \/ type = 1 \/ type = 2 \/ type = 3 \/ type = 4) as [->|[->|[->|[->| ->]]]] by lia; vm_compute in Hi; intuition discriminate.
    - unfold WriteNode4D in Hi. destruct Hv as (Hz & Hn & Ho & Hp). unfold is_u16 in *. rewrite !in_app_iff in Hi.
      assert (D : forall z, 0 <= z -> ~ In 13 (dec z)) by (intros z H0 Hz0; pose proof (dec_digits z H0) as F; rewrite Forall_forall in F; apply F in Hz0; unfold digit in Hz0; lia).
      destruct Hi as [Hi|[Hi|[Hi|[Hi|[Hi|[Hi|Hi]]]]]]; try (apply D in Hi; [auto|lia]); vm_compute in Hi; intuition discriminate.
    - destruct Hm as [->|[->| ->]]; vm_compute in Hi; intuition discriminate. }
  exists (line ++ [10]), (line ++ [10]), (WriteNode4D n ++ modeword mode ++ [10]).
  exists (behind (modeword mode ++ [10])).
  assert (Hc : exists c, token200 100 (behind (modeword mode ++ [10])) = Some c /\
     (if streqi (fst c) (lit "Truncate") then FLOW_TRUNC else if streqi (fst c) (lit "Delete") then FLOW_DELETE else FLOW_NONE) = mode).
  { destruct Hm as [->|[->| ->]]; eexists; (split; [vm_compute; reflexivity|vm_compute; reflexivity]). }
  destruct Hc as (c & Hc1 & Hc2). exists c.
  split; [rewrite orphantext_eq by auto; unfold line; rewrite <- !app_assoc; reflexivity|].
  split; [rewrite osFGets_line by (auto; simpl; lia); rewrite Ecr; reflexivity|].
  split; [unfold line; rewrite <- !app_assoc; rewrite token200_word; auto; [lia|right; eexists; eexists; split; [reflexivity|auto]]|].
  split; [|split; auto].
  rewrite token200_word; auto; [lia|]. right. destruct Hm as [->|[->| ->]]; eexists; eexists; (split; [reflexivity|auto]).
Qed.

(** ** Bundles *)
Lemma hexval_hexdig d : 0 <= d < 16 -> hexval (hexdig d) = Some d.
Proof.
  intros H. unfold hexval, hexdig. destruct (Z.ltb_spec d 10).
  - unfold tolower. replace ((65 <=? 48 + d) && (48 + d <=? 90)) with false by lia. unfold isdigit. replace ((48 <=? 48 + d) && (48 + d <=? 57)) with true by lia. f_equal; lia.
  - unfold tolower. replace ((65 <=? 87 + d) && (87 + d <=? 90)) with false by lia. unfold isdigit. replace ((48 <=? 87 + d) && (87 + d <=? 57)) with false by lia.
    replace ((97 <=? 87 + d) && (87 + d <=? 102)) with true by lia. f_equal; lia.
Qed.
Lemma hextodec_hex n : forall z v rest, 0 <= z < 16 ^ Z.of_nat n -> 0 <= v -> v * 16 ^ Z.of_nat n + z < 18446744073709551616 ->
  hextodec_aux (hex n z ++ rest) v = hextodec_aux rest (v * 16 ^ Z.of_nat n + z).
Proof.
  induction n as [|n IH]; intros z v rest Hz Hv Hb.
  - cbn [hex app]. change (16 ^ Z.of_nat 0) with 1 in *. f_equal. lia.
  - rewrite Nat2Z.inj_succ, Z.pow_succ_r in * by lia. cbn [hex]. rewrite <- app_assoc.
    assert (Hp : 0 < 16 ^ Z.of_nat n) by (apply Z.pow_pos_nonneg; lia). set (q := 16 ^ Z.of_nat n) in *.
    assert (Hz16 : z = 16 * (z / 16) + z mod 16) by zlia. assert (0 <= z mod 16 < 16) by zlia.
    assert (0 <= z / 16 < q) by (split; [zlia|apply Z.div_lt_upper_bound; lia]).
    assert (v * q + z / 16 <= v * (16 * q) + z) by nia.
    rewrite IH by lia. cbn [app hextodec_aux]. rewrite hexval_hexdig by auto. rewrite Z.mod_small; [f_equal; nia|]. nia.
Qed.
Lemma hextodec_bname b k : is_u32 b -> hextodec (bname b k) = b.
Proof.
  intros [H1 H2]. unfold hextodec, bname. rewrite hextodec_hex by (change (16 ^ Z.of_nat 8) with 4294967296; lia).
  change (lit ".") with [46]. cbn [app hextodec_aux]. reflexivity.
Qed.
Lemma tolower_idem c : tolower (tolower c) = tolower c.
Proof. unfold tolower. destruct ((65 <=? c) && (c <=? 90)) eqn:E; [replace ((65 <=? c + 32) && (c + 32 <=? 90)) with false by lia; reflexivity|rewrite E; reflexivity]. Qed.
Lemma hexval_lower c : hexval (tolower c) = hexval c.
Proof. unfold hexval. rewrite tolower_idem. reflexivity. Qed.
Lemma hextodec_lower s : forall v, hextodec_aux (map tolower s) v = hextodec_aux s v.
Proof. induction s as [|c s IH]; intros v; [reflexivity|]. cbn [map hextodec_aux]. rewrite hexval_lower. destruct (hexval c); auto. Qed.
Lemma hextodec_same a b : map tolower a = map tolower b -> hextodec a = hextodec b.
Proof. intros E. unfold hextodec. rewrite <- (hextodec_lower a), <- (hextodec_lower b), E. reflexivity. Qed.
Lemma bname_length b k : 0 <= k < 70 -> length (bname b k) = 12%nat.
Proof.
  intros H. unfold bname. rewrite !app_length, hex_length. assert (0 <= k / 10 < 7) by zlia.
  assert (k / 10 = 0 \/ k / 10 = 1 \/ k / 10 = 2 \/ k / 10 = 3 \/ k / 10 = 4 \/ k / 10 = 5 \/ k / 10 = 6) as Hc by lia.
  repeat (destruct Hc as [Hc|Hc]; [rewrite Hc; reflexivity|]). rewrite Hc; reflexivity.
Qed.
Lemma isalnumc_lower c : isalnumc (tolower c) = isalnumc c.
Proof.
  unfold isalnumc. rewrite tolower_idem. f_equal. unfold isdigit, tolower. destruct ((65 <=? c) && (c <=? 90)) eqn:E; [lia|reflexivity].
Qed.
Lemma IsArc_lower x : IsArc (map tolower x) = IsArc x.
Proof.
  unfold IsArc. rewrite map_length. f_equal; [f_equal; [f_equal|]|].
  - change 0 with (tolower 0) at 1. rewrite map_nth. unfold tolower. destruct ((65 <=? nth 8 x 0) && (nth 8 x 0 <=? 90)) eqn:E; lia.
  - rewrite firstn_map. induction (firstn 8 x) as [|c l IH]; [reflexivity|]. cbn [map forallb]. rewrite isalnumc_lower, IH. reflexivity.
  - rewrite skipn_map, firstn_map. induction daynames as [|d l IH]; [reflexivity|]. cbn [existsb]. rewrite IH. f_equal.
    unfold streqi. rewrite map_map. f_equal. apply map_ext. intros; apply tolower_idem.
Qed.
Lemma IsArc_bname b k : 0 <= k < 70 -> IsArc (bname b k) = true.
Proof.
  intros H. unfold IsArc. rewrite bname_length by auto. unfold bname.
  assert (E8 : forall r, firstn 8 (hex 8 b ++ r) = hex 8 b) by (intros r; rewrite firstn_app, hex_length, firstn_O, app_nil_r, firstn_all2; [reflexivity|rewrite hex_length; lia]).
  rewrite E8. rewrite app_nth2 by (rewrite hex_length; lia). rewrite hex_length, Nat.sub_diag.
  replace (forallb isalnumc (hex 8 b)) with true.
  2: { symmetry. apply forallb_forall. intros c Hc. pose proof (hex_fine 8 b) as F. rewrite Forall_forall in F. apply F in Hc.
       unfold isalnumc, isdigit, tolower. destruct ((65 <=? c) && (c <=? 90)) eqn:E; lia. }
  replace (skipn 9 (hex 8 b ++ lit "." ++ nth (Z.to_nat (k / 10)) daynames [] ++ [48 + k mod 10])) with (nth (Z.to_nat (k / 10)) daynames [] ++ [48 + k mod 10]).
  2: { rewrite skipn_app, hex_length, (skipn_all2 (n := 9)) by (rewrite hex_length; lia). reflexivity. }
  assert (0 <= k / 10 < 7) by zlia.
  assert (k / 10 = 0 \/ k / 10 = 1 \/ k / 10 = 2 \/ k / 10 = 3 \/ k / 10 = 4 \/ k / 10 = 5 \/ k / 10 = 6) as Hc by lia.
  repeat (destruct Hc as [Hc|Hc]; [rewrite Hc; reflexivity|]). rewrite Hc; reflexivity.
Qed.
Lemma suffixof_bname b k : 0 <= k < 70 -> suffixof (bname b k) = Some k.
Proof.
  intros H. unfold suffixof. rewrite bname_length by auto. change (Nat.ltb 12 3) with false. cbv iota. change (12 - 3)%nat with 9%nat. change (12 - 1)%nat with 11%nat.
  f_equal. unfold bname.
  replace (skipn 9 (hex 8 b ++ lit "." ++ nth (Z.to_nat (k / 10)) daynames [] ++ [48 + k mod 10])) with (nth (Z.to_nat (k / 10)) daynames [] ++ [48 + k mod 10]).
  2: { rewrite skipn_app, hex_length, (skipn_all2 (n := 9)) by (rewrite hex_length; lia). reflexivity. }
  assert (0 <= k mod 10 < 10) by zlia. assert (k = 10 * (k / 10) + k mod 10) by zlia. assert (0 <= k / 10 < 7) by zlia.
  rewrite app_nth2 by (rewrite hex_length; lia). rewrite hex_length. change (11 - 8)%nat with 3%nat.
  assert (k / 10 = 0 \/ k / 10 = 1 \/ k / 10 = 2 \/ k / 10 = 3 \/ k / 10 = 4 \/ k / 10 = 5 \/ k / 10 = 6) as Hc by lia.
  assert (Hs : schar (48 + k mod 10) - 48 = k mod 10) by (unfold schar; destruct (Z.ltb_spec (48 + k mod 10) 128); lia).
  assert (Hu : forall i, 0 <= i < 7 -> u32 (i * 10 + k mod 10) = i * 10 + k mod 10) by (intros; unfold u32; apply Z.mod_small; lia).
  repeat (destruct Hc as [Hc|Hc]; [rewrite Hc;
    match goal with |- context [nth (Z.to_nat ?i) daynames []] => let d := eval vm_compute in (nth (Z.to_nat i) daynames []) in change (nth (Z.to_nat i) daynames []) with d end;
    cbn [app firstn nth]; change (lit ".") with [46]; cbn [app nth]; rewrite Hs; cbn [daysuffix daynames map];
    repeat match goal with |- context [streqi ?a ?b] => let v := eval vm_compute in (streqi a b) in change (streqi a b) with v end; cbv iota; cbn [Z.add]; rewrite Hu by lia; lia|]).
  rewrite Hc;
    match goal with |- context [nth (Z.to_nat ?i) daynames []] => let d := eval vm_compute in (nth (Z.to_nat i) daynames []) in change (nth (Z.to_nat i) daynames []) with d end;
    cbn [app firstn nth]; change (lit ".") with [46]; cbn [app nth]; rewrite Hs; cbn [daysuffix daynames map];
    repeat match goal with |- context [streqi ?a ?b] => let v := eval vm_compute in (streqi a b) in change (streqi a b) with v end; cbv iota; cbn [Z.add]; rewrite Hu by lia; lia.
Qed.
Lemma bundlename_eq b k : 0 <= k < 70 -> bundlename b k = Some (bname b k).
Proof.
  intros H. unfold bundlename, bname. assert (0 <= k / 10 < 7) by zlia. assert (0 <= k mod 10 < 10) by zlia.
  rewrite dec_eq by lia. destruct (Z.ltb_spec (k mod 10) 10); [|lia].
  assert (k / 10 = 0 \/ k / 10 = 1 \/ k / 10 = 2 \/ k / 10 = 3 \/ k / 10 = 4 \/ k / 10 = 5 \/ k / 10 = 6) as Hc by lia.
  repeat (destruct Hc as [Hc|Hc]; [rewrite Hc; reflexivity|]). rewrite Hc; reflexivity.
Qed.
Lemma bname_inj b k b' k' : is_u32 b -> is_u32 b' -> 0 <= k < 70 -> 0 <= k' < 70 -> bname b k = bname b' k' -> b = b' /\ k = k'.
Proof.
  intros Hb Hb' Hk Hk' E. split.
  - rewrite <- (hextodec_bname b k), <- (hextodec_bname b' k') by auto. congruence.
  - assert (Some k = Some k') by (rewrite <- (suffixof_bname b k), <- (suffixof_bname b' k') by auto; congruence). congruence.
Qed.
Lemma bname_lower b k : 0 <= k < 70 -> map tolower (bname b k) = bname b k.
Proof.
  intros H. apply map_id_forall. unfold bname. assert (0 <= k / 10 < 7) by zlia. assert (0 <= k mod 10 < 10) by zlia.
  apply Forall_app. split; [pose proof (hex_fine 8 b) as F; revert F; apply Forall_impl; intros c Hc; unfold tolower; destruct ((65 <=? c) && (c <=? 90)) eqn:E; lia|].
  apply Forall_app. split; [litc; repeat constructor|]. apply Forall_app. split.
  - assert (k / 10 = 0 \/ k / 10 = 1 \/ k / 10 = 2 \/ k / 10 = 3 \/ k / 10 = 4 \/ k / 10 = 5 \/ k / 10 = 6) as Hc by lia.
    repeat (destruct Hc as [Hc|Hc]; [rewrite Hc; repeat constructor|]). rewrite Hc; repeat constructor.
  - constructor; [|constructor]. unfold tolower. destruct ((65 <=? 48 + k mod 10) && (48 + k mod 10 <=? 90)) eqn:E; lia.
Qed.

Definition usednums (arcs : list (list Z * Z)) (last : list (list Z)) : list Z := map (fun a => hextodec (fst a)) arcs ++ map hextodec last.
Lemma exists_used arcs last num : ExistsBasenum arcs last num = true -> In num (usednums arcs last).
Proof.
  unfold ExistsBasenum, usednums. rewrite orb_true_iff, !existsb_exists, in_app_iff, !in_map_iff.
  intros [(a & Hin & E)|(l & Hin & E)]; [left; exists a|right; exists l].
  - apply andb_true_iff in E as [_ E]. split; auto. lia.
  - destruct l; [discriminate|]. split; auto. lia.
Qed.
Lemma freebasenum_ok : forall fuel arcs last num b, is_u32 num -> freebasenum fuel arcs last num = Some b -> ExistsBasenum arcs last b = false /\ is_u32 b.
Proof.
  induction fuel as [|f IH]; intros arcs last num b Hn E; [discriminate|]. cbn [freebasenum] in E.
  destruct (ExistsBasenum arcs last num) eqn:Ee.
  - apply (IH arcs last (u32 (num + 1)) b); auto. unfold is_u32, u32. zlia.
  - assert (b = num) by congruence. subst. auto.
Qed.
Lemma freebasenum_none : forall fuel arcs last num, is_u32 num -> freebasenum fuel arcs last num = None ->
  forall i, 0 <= i < Z.of_nat fuel -> In (u32 (num + i)) (usednums arcs last).
Proof.
  induction fuel as [|f IH]; intros arcs last num Hn E i Hi; [lia|]. cbn [freebasenum] in E.
  destruct (ExistsBasenum arcs last num) eqn:Ee; [|discriminate].
  destruct (Z.eq_dec i 0) as [->|Hi0].
  - rewrite Z.add_0_r. unfold u32. rewrite Z.mod_small by (unfold is_u32 in Hn; lia). apply exists_used; auto.
  - replace (u32 (num + i)) with (u32 (u32 (num + 1) + (i - 1))).
    + apply IH; auto; [unfold is_u32, u32; zlia|lia].
    + unfold u32. rewrite Zplus_mod_idemp_l. f_equal. lia.
Qed.
Lemma NoDup_map_inj {A B} (f : A -> B) l : (forall a b, In a l -> In b l -> f a = f b -> a = b) -> NoDup l -> NoDup (map f l).
Proof.
  intros Hf Hn. induction Hn as [|x l Hx Hn IH]; cbn [map]; constructor.
  - intros Hin. apply in_map_iff in Hin as (y & E & Hy). apply Hx. rewrite (Hf x y); auto; [left; auto|right; auto].
  - apply IH. intros; apply Hf; auto; right; auto.
Qed.
Lemma freebasenum_some arcs last num : is_u32 num -> Z.of_nat (length arcs) + Z.of_nat (length last) < 4294967295 ->
  exists b, freebasenum (S (length arcs + length last)) arcs last num = Some b.
Proof.
  intros Hn Hl. destruct (freebasenum (S (length arcs + length last)) arcs last num) as [b|] eqn:E; [eauto|]. exfalso.
  pose proof (freebasenum_none _ _ _ _ Hn E) as H.
  set (cand := map (fun i => u32 (num + Z.of_nat i)) (seq 0 (S (length arcs + length last)))).
  assert (Hnd : NoDup cand).
  { apply NoDup_map_inj; [|apply seq_NoDup]. intros a b Ha Hb Eab. apply in_seq in Ha, Hb. unfold u32 in Eab.
    assert (exists q, Z.of_nat a - Z.of_nat b = q * 4294967296) as (q & Hq) by (exists ((num + Z.of_nat a) / 4294967296 - (num + Z.of_nat b) / 4294967296); zlia).
    assert (q = 0) by nia. subst q. lia. }
  assert (Hin : incl cand (usednums arcs last)).
  { intros x Hx. unfold cand in Hx. apply in_map_iff in Hx as (i & <- & Hi). apply in_seq in Hi. apply H. lia. }
  pose proof (NoDup_incl_length Hnd Hin) as Hlen. unfold cand, usednums in Hlen. rewrite map_length, seq_length, app_length, !map_length in Hlen. lia.
Qed.
Lemma lastentry_spec arcs n : forall found, (forall sz, dir_size arcs n (Some sz) -> lastentry arcs n found = Some sz) /\ (~ in_dir arcs n -> lastentry arcs n found = found).
Proof.
  induction arcs as [|[f s] arcs IH]; intros found.
  - split; [intros sz (l1 & a & l2 & E & _); destruct l1; discriminate|reflexivity].
  - cbn [lastentry]. split.
    + intros sz (l1 & a & l2 & E & Ha & Hs & Hno). destruct l1 as [|x l1]; cbn [app] in E; inversion E; subst.
      * cbn [fst snd] in *. replace (streqi n f) with true by (symmetry; apply streqi_iff; auto). apply IH; auto.
      * apply IH. exists l1, a, l2. auto.
    + intros Hno. replace (streqi n f) with false.
      * apply IH. intros (a & Hin & Ea). apply Hno. exists a. split; [right; auto|auto].
      * symmetry. destruct (streqi n f) eqn:E; [|reflexivity]. exfalso. apply Hno. exists (f, s). split; [left; auto|]. apply streqi_iff in E. auto.
Qed.
Lemma existsbundle_spec arcs b k : 0 <= k < 70 -> exists e, ExistsBundle arcs b k = Some e /\ (e = true <-> in_dir arcs (bname b k)).
Proof.
  intros H. unfold ExistsBundle. rewrite bundlename_eq by auto. cbn [obind]. eexists. split; [reflexivity|]. rewrite existsb_exists. unfold in_dir.
  split; intros (a & Hin & E); exists a; (split; [auto|]); apply streqi_iff; auto.
Qed.
(** the body of MakeArcName for a node that has a bundle *)
Definition again (env : oenv) (sz : option Z) (k : Z) : bool :=
  match sz with None => true | Some s => (s =? 0) || (s >? oe_maxbundle env) end ||
  (flag (oe_flags env) CFG_WEEKDAYNAMING && negb (k / 10 =? oe_wday env)).
Lemma MakeArcName_old env arcs last i b k sz : nth_error last i = Some (bname b k) -> is_u32 b -> 0 <= k < 70 -> 0 <= oe_wday env < 7 ->
  dir_size arcs (bname b k) sz ->
  let n := next_bundle (flag (oe_flags env) CFG_WEEKDAYNAMING) (oe_wday env) k in
  0 <= n < 70 /\ exists e k', (e = true <-> in_dir arcs (bname b n)) /\ k' = (if again env sz k then if e then k else n else k) /\
    MakeArcName env arcs last i = Some (if streqi (bname b k) (bname b k') then (bname b k', last, false) else (bname b k', firstn i last ++ [bname b k'] ++ skipn (S i) last, true)).
Proof.
  intros Hi Hb Hk Hw Hsz n. assert (Hn : 0 <= n < 70).
  { unfold n, next_bundle. assert (0 <= (k + 1) mod 70 < 70) by zlia. destruct (_ && _); lia. }
  split; auto. destruct (existsbundle_spec arcs b n Hn) as (e & Ee & He). exists e. eexists. split; [exact He|]. split; [reflexivity|].
  unfold MakeArcName. rewrite (nth_error_nth _ _ [] Hi).
  pose proof (bname_length b k Hk) as Hlen. destruct (bname b k) as [|c0 r0] eqn:Eb; [discriminate|]. rewrite <- Eb. rewrite suffixof_bname by auto. cbn [obind].
  rewrite hextodec_bname by auto. replace (u32 b) with b by (unfold u32; rewrite Z.mod_small; auto).
  unfold NOSUFFIX. destruct (Z.eqb_spec k 4294967295); [lia|].
  assert (El : lastentry arcs (bname b k) None = sz).
  { rewrite <- Eb in Hsz. destruct sz as [sz|]; [apply (proj1 (lastentry_spec arcs (bname b k) None)); auto|apply (proj2 (lastentry_spec arcs (bname b k) None)); auto]. }
  rewrite El. change ((match sz with None => true | Some size => (size =? 0) || (size >? oe_maxbundle env) end) ||
                    (flag (oe_flags env) CFG_WEEKDAYNAMING && negb (k / 10 =? oe_wday env))) with (again env sz k).
  assert (En : (if flag (oe_flags env) CFG_WEEKDAYNAMING && negb ((if k + 1 =? 70 then 0 else k + 1) / 10 =? oe_wday env) then oe_wday env * 10 else if k + 1 =? 70 then 0 else k + 1) = n).
  { unfold n, next_bundle. replace (if k + 1 =? 70 then 0 else k + 1) with ((k + 1) mod 70); [reflexivity|]. destruct (Z.eqb_spec (k + 1) 70) as [E|E]; [rewrite E; reflexivity|apply Z.mod_small; lia]. }
  cbv zeta. rewrite En, Ee. cbn [obind].
  destruct (again env sz k); cbn [obind].
  - destruct e; cbn [obind]; rewrite bundlename_eq by auto; cbn [obind]; destruct (streqi _ _); reflexivity.
  - rewrite bundlename_eq by auto; cbn [obind]. destruct (streqi _ _); reflexivity.
Qed.
Lemma MakeArcName_new env arcs last i : nth_error last i = Some [] -> 0 <= oe_wday env < 7 -> Z.of_nat (length arcs) + Z.of_nat (length last) < 4294967295 ->
  let k := if flag (oe_flags env) CFG_WEEKDAYNAMING then oe_wday env * 10 else 0 in
  exists b, is_u32 b /\ ExistsBasenum arcs last b = false /\ MakeArcName env arcs last i = Some (bname b k, firstn i last ++ [bname b k] ++ skipn (S i) last, true).
Proof.
  intros Hi Hw Hl k. assert (Hk : 0 <= k < 70) by (unfold k; destruct (flag _ _); lia).
  assert (Hn : is_u32 (u32 (oe_time env))) by (unfold is_u32, u32; zlia).
  destruct (freebasenum_some arcs last (u32 (oe_time env)) Hn Hl) as (b & Eb). destruct (freebasenum_ok _ _ _ _ _ Hn Eb) as [Hf Hb].
  exists b. split; auto. split; auto. unfold MakeArcName. rewrite (nth_error_nth _ _ [] Hi). cbv zeta. rewrite Eb. cbn [obind].
  rewrite Z.eqb_refl. cbn [obind]. fold k. rewrite bundlename_eq by auto. cbn [obind].
  pose proof (bname_length b k Hk). destruct (bname b k) eqn:E; [discriminate|]. reflexivity.
Qed.
Lemma set_nth_same {A} (l : list A) i x : (i < length l)%nat -> nth_error (firstn i l ++ [x] ++ skipn (S i) l) i = Some x.
Proof. intros H. rewrite nth_error_app2 by (rewrite firstn_length; lia). rewrite firstn_length, Nat.min_l, Nat.sub_diag by lia. reflexivity. Qed.
Lemma set_nth_other {A} (l : list A) i j x : (i < length l)%nat -> j <> i -> nth_error (firstn i l ++ [x] ++ skipn (S i) l) j = nth_error l j.
Proof.
  intros H Hj. transitivity (nth_error (firstn i l ++ skipn i l) j); [|rewrite firstn_skipn; reflexivity]. destruct (Nat.lt_ge_cases j i) as [Hlt|Hge].
  - rewrite !nth_error_app1 by (rewrite firstn_length; lia). reflexivity.
  - rewrite (nth_error_app2 (firstn i l) ([x] ++ _)), (nth_error_app2 (firstn i l) (skipn i l)) by (rewrite firstn_length; lia). rewrite firstn_length, Nat.min_l by lia.
    destruct (j - i)%nat as [|m] eqn:E; [lia|]. cbn [app nth_error].
    destruct (skipn i l) as [|y r] eqn:Es.
    + apply (f_equal (@List.length A)) in Es. rewrite skipn_length in Es. simpl in Es. lia.
    + cbn [nth_error]. replace (skipn (S i) l) with r; [reflexivity|]. clear -Es. revert l Es. induction i as [|i IH]; intros [|z l] Es; cbn [skipn] in *; try discriminate; [congruence|]. apply IH. exact Es.
Qed.
Lemma set_nth_length {A} (l : list A) i x : (i < length l)%nat -> length (firstn i l ++ [x] ++ skipn (S i) l) = length l.
Proof. intros H. rewrite !app_length, firstn_length, skipn_length. simpl. lia. Qed.
Lemma is_bundle_fun l b k b' k' : is_bundle l b k -> is_bundle l b' k' -> b = b' /\ k = k'.
Proof. intros (H1 & H2 & E1) (H3 & H4 & E2). apply bname_inj; auto. congruence. Qed.
Lemma Forall_firstn' {A} (P : A -> Prop) n l : Forall P l -> Forall P (firstn n l).
Proof. intros H. rewrite <- (firstn_skipn n l) in H. apply Forall_app in H. tauto. Qed.
Lemma Forall_skipn' {A} (P : A -> Prop) n l : Forall P l -> Forall P (skipn n l).
Proof. intros H. rewrite <- (firstn_skipn n l) in H. apply Forall_app in H. tauto. Qed.
Lemma names_set last i b k : names_ok last -> (i < length last)%nat -> is_u32 b -> 0 <= k < 70 ->
  (forall j l b' k', j <> i -> nth_error last j = Some l -> is_bundle l b' k' -> b' <> b) ->
  names_ok (firstn i last ++ [bname b k] ++ skipn (S i) last).
Proof.
  intros [H1 H2] Hi Hb Hk Hd. split.
  - apply Forall_app. split; [apply Forall_firstn'; auto|]. constructor; [right; exists b, k; split; auto|]. apply Forall_skipn'; auto.
  - intros x y lx ly b1 k1 b2 k2 Hxy Ex Ey B1 B2.
    assert (Hmine : forall l b' k', is_bundle l b' k' -> l = bname b k -> b' = b) by (intros l b' k' Hl ->; eapply (is_bundle_fun _ b' k' b k); eauto; split; auto).
    destruct (Nat.eq_dec x i) as [->|Hx], (Nat.eq_dec y i) as [->|Hy]; [congruence| | |].
    + rewrite set_nth_same in Ex by auto. rewrite set_nth_other in Ey by auto. rewrite (Hmine lx b1 k1) by (auto; congruence). intros E. eapply Hd; eauto.
    + rewrite set_nth_same in Ey by auto. rewrite set_nth_other in Ex by auto. rewrite (Hmine ly b2 k2) by (auto; congruence). eapply Hd; eauto.
    + rewrite set_nth_other in Ex, Ey by auto. eapply H2; [|exact Ex|exact Ey|exact B1|exact B2]. auto.
Qed.
Lemma dir_size_ex arcs n : exists sz, dir_size arcs n sz.
Proof.
  induction arcs as [|a arcs (sz & H)] using rev_ind; [exists None; intros (a & [] & _)|].
  destruct (list_eq_dec Z.eq_dec (map tolower (fst a)) (map tolower n)) as [E|E].
  - exists (Some (snd a)), arcs, a, []. repeat split; auto. intros (x & [] & _).
  - assert (Ha : ~ in_dir [a] n) by (intros (x & [<-|[]] & Hx); auto).
    exists sz. destruct sz as [sz|].
    + destruct H as (l1 & x & l2 & -> & H1 & H2 & H3). exists l1, x, (l2 ++ [a]). rewrite <- app_assoc. repeat split; auto.
      intros (y & Hy & Ey). apply in_app_or in Hy as [Hy|Hy]; [apply H3; exists y; auto|apply Ha; exists y; auto].
    + intros (y & Hy & Ey). apply in_app_or in Hy as [Hy|Hy]; [apply H; exists y; auto|apply Ha; exists y; auto].
Qed.
Lemma not_used_dir arcs last b k : ExistsBasenum arcs last b = false -> is_u32 b -> 0 <= k < 70 -> ~ in_dir arcs (bname b k).
Proof.
  intros H Hb Hk (a & Hin & E). unfold ExistsBasenum in H. apply orb_false_iff in H as [H _].
  assert (existsb (fun a => IsArc (fst a) && (hextodec (fst a) =? b)) arcs = true); [|congruence].
  apply existsb_exists. exists a. split; auto. rewrite <- IsArc_lower, E, IsArc_lower, IsArc_bname by auto. rewrite (hextodec_same _ _ E), hextodec_bname by auto. cbn [andb]. lia.
Qed.
Lemma not_used_last arcs last b j l b' k' : ExistsBasenum arcs last b = false -> nth_error last j = Some l -> is_bundle l b' k' -> b' <> b.
Proof.
  intros H Hj (Hb & Hk & ->) E. subst b'. unfold ExistsBasenum in H. apply orb_false_iff in H as [_ H].
  assert (existsb (fun l => match l with [] => false | _ => hextodec l =? b end) last = true); [|congruence].
  apply existsb_exists. exists (bname b k'). split; [eapply nth_error_In; eauto|]. rewrite hextodec_bname by auto. pose proof (bname_length b k' Hk). destruct (bname b k'); [discriminate|]. lia.
Qed.
(** one choice of a name *)
Lemma choice env arcs last i : names_ok last -> (i < length last)%nat -> 0 <= oe_wday env < 7 ->
  Z.of_nat (length arcs) + Z.of_nat (length last) < 4294967295 ->
  exists b k last' ch, is_u32 b /\ 0 <= k < 70 /\ MakeArcName env arcs last i = Some (bname b k, last', ch) /\
    (nth_error last i = Some (bname b k) \/ ~ in_dir arcs (bname b k)) /\
    names_ok last' /\ nth_error last' i = Some (bname b k) /\ (forall j, j <> i -> nth_error last' j = nth_error last j) /\ length last' = length last /\
    (ch = false -> last' = last) /\
    (nth_error last i = Some [] \/ exists k0, 0 <= k0 < 70 /\ nth_error last i = Some (bname b k0)).
Proof.
  intros Hok Hi Hw Hl. destruct (nth_error last i) as [mine|] eqn:Ei; [|apply nth_error_None in Ei; lia].
  assert (Hm : mine = [] \/ exists b k, is_bundle mine b k) by (destruct Hok as [H _]; rewrite Forall_forall in H; apply H; eapply nth_error_In; eauto).
  destruct Hm as [->|(b & k0 & Hb & Hk0 & ->)].
  - destruct (MakeArcName_new env arcs last i Ei Hw Hl) as (b & Hb & Hf & E). set (k := if flag (oe_flags env) CFG_WEEKDAYNAMING then _ else _) in E.
    assert (Hk : 0 <= k < 70) by (unfold k; destruct (flag _ _); lia).
    exists b, k. do 2 eexists. split; auto. split; auto. split; [exact E|]. split; [right; eapply not_used_dir; eauto|].
    split; [apply names_set; auto; intros j l b' k' Hj Hl' Hb'; eapply not_used_last; eauto|].
    split; [apply set_nth_same; auto|]. split; [intros; apply set_nth_other; auto|]. split; [apply set_nth_length; auto|]. split; [discriminate|]. auto.
  - destruct (dir_size_ex arcs (bname b k0)) as (sz & Hsz). destruct (MakeArcName_old env arcs last i b k0 sz Ei Hb Hk0 Hw Hsz) as (Hn & e & k & He & Ek & E).
    set (n := next_bundle _ _ _) in *.
    assert (Hk : 0 <= k < 70) by (destruct (again env sz k0), e; lia).
    assert (Hdir : k = k0 \/ ~ in_dir arcs (bname b k)).
    { destruct (again env sz k0); [|auto]. destruct e; [auto|]. right. subst k. intros H. apply He in H. discriminate. }
    exists b, k. destruct (streqi (bname b k0) (bname b k)) eqn:Es.
    + apply streqi_iff in Es. rewrite !bname_lower in Es by auto. apply bname_inj in Es as [_ <-]; auto. exists last, false.
      repeat (split; [now auto|]). right. exists k0. auto.
    + exists (firstn i last ++ [bname b k] ++ skipn (S i) last), true. split; auto. split; auto. split; [exact E|].
      split; [destruct Hdir as [->|Hd]; auto|]. split.
      * apply names_set; auto. intros j l b' k' Hj Hl' Hb'. destruct Hok as [_ Hok]. eapply (Hok j i _ _ b' k' b k0); [auto|exact Hl'|exact Ei|exact Hb'|]. split; [exact Hb|split; [exact Hk0|reflexivity]].
      * split; [apply set_nth_same; auto|]. split; [intros; apply set_nth_other; auto|]. split; [apply set_nth_length; auto|]. split; [discriminate|]. right. exists k0. auto.
Qed.
Lemma choices env ops : forall last, names_ok last -> Forall (bop_ok (length last)) ops ->
  exists l fin, bundles env last ops = Some (l, fin) /\ names_ok fin /\ length fin = length last /\ length l = length ops /\
    (forall i b k, 0 <= k < 70 -> is_u32 b -> nth_error last i = Some (bname b k) -> exists k', 0 <= k' < 70 /\ nth_error fin i = Some (bname b k')) /\
    (forall i n, In (i, n) l -> exists b k k', is_bundle n b k /\ 0 <= k' < 70 /\ nth_error fin i = Some (bname b k')).
Proof.
  induction ops as [|o ops IH]; intros last Hok F; cbn [bundles].
  - exists [], last. repeat (split; [now auto|]). split; [intros i b k Hk _ H; exists k; auto|intros i n []].
  - inversion F as [|? ? (H1 & H2 & H3) F']; subst.
    destruct (choice (with_op env o) (bo_arcs o) last (bo_node o) Hok H1) as (b & k & last' & ch & Hb & Hk & E & _ & Hok' & Ei & Eo & El & _ & Hold); [exact H2|lia|].
    rewrite E. rewrite <- El in F'. destruct (IH last' Hok' F') as (l & fin & Eb & I1 & I2 & I3 & I4 & I5). rewrite Eb. exists ((bo_node o, bname b k) :: l), fin.
    split; auto. split; auto. split; [congruence|]. split; [simpl; auto|]. split.
    + intros i b' k' Hk' Hb' Hi. destruct (Nat.eq_dec i (bo_node o)) as [->|Hne].
      * destruct Hold as [Hold|(k0 & Hk0 & Hold)]; [rewrite Hold in Hi; pose proof (bname_length b' k' Hk') as Hlen; assert (bname b' k' = []) by congruence; rewrite H in Hlen; discriminate|].
        rewrite Hold in Hi. assert (Eq : bname b k0 = bname b' k') by congruence. apply bname_inj in Eq as [<- <-]; auto. exact (I4 _ b k Hk Hb Ei).
      * rewrite <- Eo in Hi by auto. eapply I4; eauto.
    + intros i n [Hin|Hin]; [|eapply I5; eauto]. assert (i = bo_node o /\ n = bname b k) as [-> ->] by (split; congruence).
      destruct (I4 (bo_node o) b k Hk Hb Ei) as (k' & Hk' & Ef). exists b, k, k'. split; [split; auto|]. auto.
Qed.

(** the index *)
Lemma print4d_chars n : valid4d n -> Forall (fun c => 46 <= c <= 58) (Print4D n) /\ (1 <= length (Print4D n) <= 23)%nat.
Proof.
  intros (Hz & Hn & Ho & Hp).
  pose proof (dec_length_u16 _ Hz). pose proof (dec_length_u16 _ Hn). pose proof (dec_length_u16 _ Ho). pose proof (dec_length_u16 _ Hp). unfold is_u16 in *.
  assert (D : forall z, 0 <= z -> Forall (fun c => 46 <= c <= 58) (dec z)) by (intros z Hz0; pose proof (dec_digits z Hz0) as F; revert F; apply Forall_impl; unfold digit; intros; lia).
  unfold Print4D. destruct (negb (point n =? 0)); (split; [|rewrite !app_length; litc; simpl; lia]);
  repeat (apply Forall_app; split); try (apply D; lia); litc; repeat constructor; lia.
Qed.
Lemma bname_chars b k : 0 <= k < 70 -> Forall (fun c => 46 <= c <= 57 \/ 97 <= c <= 122) (bname b k).
Proof.
  intros H. unfold bname. assert (0 <= k / 10 < 7) by zlia. assert (0 <= k mod 10 < 10) by zlia.
  apply Forall_app. split; [pose proof (hex_fine 8 b) as F; revert F; apply Forall_impl; intros; lia|].
  apply Forall_app. split; [litc; repeat constructor; lia|]. apply Forall_app. split; [|constructor; [lia|constructor]].
  assert (k / 10 = 0 \/ k / 10 = 1 \/ k / 10 = 2 \/ k / 10 = 3 \/ k / 10 = 4 \/ k / 10 = 5 \/ k / 10 = 6) as Hc by lia.
  repeat (destruct Hc as [Hc|Hc]; [rewrite Hc; match goal with |- Forall _ ?l => let l' := eval vm_compute in l in change l with l' end; repeat constructor; lia|]). rewrite Hc; match goal with |- Forall _ ?l => let l' := eval vm_compute in l in change l with l' end; repeat constructor; lia.
Qed.
Lemma index_line fuel nodes n l rest last b k : valid4d n -> is_bundle l b k ->
  readindex (S fuel) nodes (Print4D n ++ lit " " ++ l ++ [10] ++ rest) last = readindex fuel nodes rest (setlast nodes n l last).
Proof.
  intros Hv (Hb & Hk & ->). destruct (print4d_chars n Hv) as [P1 P2]. pose proof (bname_chars b k Hk) as B1. pose proof (bname_length b k Hk) as B2.
  change (lit " ") with [32]. cbn [readindex]. set (line := Print4D n ++ [32] ++ bname b k).
  assert (Hch : Forall (fun c => 32 <= c <= 122) line).
  { unfold line. apply Forall_app. split; [revert P1; apply Forall_impl; intros; lia|]. apply Forall_app. split; [repeat constructor; lia|revert B1; apply Forall_impl; intros; lia]. }
  assert (Hl : (length line <= 36)%nat) by (unfold line; rewrite !app_length; cbn [List.length]; lia).
  assert (Hno : ~ In 10 line /\ ~ In 0 line /\ ~ In 13 line) by (rewrite Forall_forall in Hch; repeat split; intros Hin; apply Hch in Hin; lia).
  destruct Hno as (N10 & N0 & N13).
  replace (Print4D n ++ [32] ++ bname b k ++ [10] ++ rest) with (line ++ 10 :: rest) by (unfold line; rewrite <- !app_assoc; reflexivity).
  rewrite osFGets_line by (auto; simpl; lia). rewrite crlf_strip.
  assert (Est : striptrail line = line).
  { apply striptrail_keep; [unfold line; intros E; apply app_eq_nil in E as [_ E]; discriminate|]. unfold line.
    destruct (exists_last (l := bname b k)) as (a & c & E); [intros E; rewrite E in B2; discriminate|]. rewrite E in *. rewrite !app_assoc, last_last.
    apply Forall_app in B1 as [_ B1]. inversion B1; subst. unfold isstrip. lia. }
  rewrite Est. unfold line at 1. rewrite token200_word.
  - cbn [obind fst snd behind app]. change (32 =? 10) with false. cbv iota. rewrite print_parse by auto. rewrite <- (app_nil_r (bname b k)), token200_word.
    + rewrite app_nil_r. reflexivity.
    + revert B1; apply Forall_impl; unfold plain; intros; lia.
    + intros E; rewrite E in B2; discriminate.
    + destruct (bname b k); [discriminate|]. inversion B1; subst. simpl. lia.
    + lia.
    + auto.
  - revert P1; apply Forall_impl; unfold plain; intros; lia.
  - intros E; rewrite E in P2; simpl in P2; lia.
  - destruct (Print4D n); [simpl; lia|]. inversion P1; subst. simpl. lia.
  - lia.
  - right. eexists; eexists. split; [reflexivity|auto].
Qed.
Lemma setlast_other a n l x : Forall (fun c => Compare4D (on_node c) n <> 0) a -> setlast a n l x = x.
Proof.
  intros F. revert x. induction F as [|c a Hc F IH]; intros [|y x]; cbn [setlast]; auto. destruct (Z.eqb_spec (Compare4D (on_node c) n) 0); [contradiction|]. rewrite IH. reflexivity.
Qed.
Lemma setlast_app a b n l x y : length a = length x -> setlast (a ++ b) n l (x ++ y) = setlast a n l x ++ setlast b n l y.
Proof. revert x. induction a as [|c a IH]; intros [|z x] H; cbn [app setlast]; try discriminate; auto. rewrite IH by (simpl in H; lia). reflexivity. Qed.
Definition distinct_nodes (nodes : list onode) : Prop := forall i j a b, i <> j -> nth_error nodes i = Some a -> nth_error nodes j = Some b ->
  Compare4D (on_node a) (on_node b) <> 0.
Lemma distinct_mid pre c ns : distinct_nodes (pre ++ c :: ns) -> Forall (fun x => Compare4D (on_node x) (on_node c) <> 0) pre /\ Forall (fun x => Compare4D (on_node x) (on_node c) <> 0) ns.
Proof.
  intros D. assert (Hc : nth_error (pre ++ c :: ns) (length pre) = Some c) by (rewrite nth_error_app2, Nat.sub_diag by lia; reflexivity).
  split; apply Forall_forall; intros x Hx; apply In_nth_error in Hx as (i & Hi).
  - assert (Hlt : (i < length pre)%nat) by (apply nth_error_Some; congruence). apply (D i (length pre)); [lia|rewrite nth_error_app1; auto|auto].
  - apply (D (length pre + S i)%nat (length pre)); [lia|rewrite nth_error_app2 by lia; replace (length pre + S i - length pre)%nat with (S i) by lia; auto|auto].
Qed.
Lemma readindex_lines : forall ns ls pre lpre fuel, (length (indexlines ns ls) < fuel)%nat -> length ns = length ls -> length pre = length lpre ->
  distinct_nodes (pre ++ ns) -> Forall (fun c => valid4d (on_node c)) ns -> Forall (fun l => l = [] \/ exists b k, is_bundle l b k) ls ->
  (forall c, In c ns -> Compare4D (on_node c) (on_node c) = 0) ->
  readindex fuel (pre ++ ns) (indexlines ns ls) (lpre ++ repeat [] (length ls)) = Some (lpre ++ ls).
Proof.
  induction ns as [|c ns IH]; intros ls pre lpre fuel Hf Hl Hp D V F R.
  - destruct ls; [|discriminate]. destruct fuel; [lia|]. reflexivity.
  - destruct ls as [|l ls]; [discriminate|]. inversion V; subst. inversion F as [|? ? Hl0 F']; subst. cbn [indexlines List.length repeat] in *.
    assert (Estep : forall la fuel', (length (indexlines ns ls) < fuel')%nat -> la = l ->
      readindex fuel' (pre ++ c :: ns) (indexlines ns ls) (lpre ++ la :: repeat [] (length ls)) = Some (lpre ++ l :: ls)).
    { intros la fuel' Hf' ->. replace (pre ++ c :: ns) with ((pre ++ [c]) ++ ns) by (rewrite <- app_assoc; reflexivity).
      replace (lpre ++ l :: repeat [] (length ls)) with ((lpre ++ [l]) ++ repeat [] (length ls)) by (rewrite <- app_assoc; reflexivity).
      rewrite IH; auto; [rewrite <- app_assoc; reflexivity|rewrite !app_length; simpl; lia|rewrite <- app_assoc; exact D|intros; apply R; right; auto]. }
    destruct Hl0 as [->|(b & k & Hbk)].
    + cbn [app]. apply Estep; auto.
    + destruct fuel as [|fuel]; [lia|]. destruct l as [|c0 l0] eqn:El; [exfalso; destruct Hbk as (_ & Hk & E); pose proof (bname_length b k Hk) as Hlen; rewrite <- E in Hlen; discriminate|].
      rewrite <- El in *. cbn [app] in Hf. rewrite <- !app_assoc. rewrite (index_line fuel (pre ++ c :: ns) (on_node c) l (indexlines ns ls) _ b k) by auto.
      rewrite setlast_app by auto. destruct (distinct_mid pre c ns D) as [D1 D2]. rewrite setlast_other by auto. cbn [setlast]. rewrite R by (left; auto). cbn [Z.eqb].
      rewrite setlast_other by auto. rewrite firstn_all2 by (destruct Hbk as (_ & Hk & ->); rewrite bname_length by auto; lia). apply Estep; auto. rewrite !app_length in Hf. cbn [List.length] in Hf. lia.
Qed.
Lemma names_tail c r : names_ok (c :: r) -> names_ok r /\ forall b k l b' k', is_bundle c b k -> In l r -> is_bundle l b' k' -> b <> b'.
Proof.
  intros [H1 H2]. inversion H1; subst. split; [split; auto|].
  - intros i j li lj b k b' k' Hij Hi Hj. apply (H2 (S i) (S j)); auto.
  - intros b k l b' k' Hc Hl Hb. apply In_nth_error in Hl as (j & Hj). apply (H2 0%nat (S j) c l b k b' k'); auto.
Qed.
Lemma cleardup_ok c r : names_ok (c :: r) -> fst (cleardup c r) = r.
Proof.
  intros H. pose proof H as [H1 _]. inversion H1 as [|? ? Hc Hr]; subst. destruct (names_tail c r H) as [_ Hd]. clear H H1.
  induction r as [|c2 r IH]; [reflexivity|]. cbn [cleardup]. inversion Hr as [|? ? Hc2 Hr']; subst.
  assert (IH' : fst (cleardup c r) = r) by (apply IH; auto; intros; eapply Hd; eauto; right; auto).
  destruct (cleardup c r) as [r' ch]. cbn [fst] in IH'. subst r'.
  destruct (negb (length c =? 0)%nat && (hextodec c =? hextodec c2)) eqn:E; [|reflexivity]. cbn [fst].
  destruct Hc2 as [->|(b' & k' & Hb')]; [reflexivity|]. exfalso. apply andb_true_iff in E as [E1 E2].
  destruct Hc as [->|(b & k & Hb)]; [discriminate|]. apply (Hd b k c2 b' k'); auto; [left; auto|].
  destruct Hb as (U & K & ->), Hb' as (U' & K' & ->). rewrite !hextodec_bname in E2 by auto. lia.
Qed.
Lemma cleardups_ok last : names_ok last -> fst (cleardups (length last) last) = last.
Proof.
  induction last as [|c r IH]; intros H; [reflexivity|]. cbn [List.length cleardups]. pose proof (cleardup_ok c r H) as E. destruct (cleardup c r) as [r1 ch1]. cbn [fst] in E. subst r1.
  destruct (names_tail c r H) as [Hr _]. specialize (IH Hr). destruct (cleardups (length r) r) as [r2 ch2]. cbn [fst] in *. congruence.
Qed.
(** after cleardups no two numbers are the same *)
Lemma cleardup_props c1 r : length (fst (cleardup c1 r)) = length r /\
  forall j l, nth_error (fst (cleardup c1 r)) j = Some l -> (l = [] \/ (nth_error r j = Some l /\ (c1 <> [] -> hextodec c1 <> hextodec l))).
Proof.
  induction r as [|c2 r [IH1 IH2]]; [split; [reflexivity|intros [|j] l; discriminate]|]. cbn [cleardup]. destruct (cleardup c1 r) as [r' ch]. cbn [fst] in *.
  destruct (negb (length c1 =? 0)%nat && (hextodec c1 =? hextodec c2)) eqn:E; cbn [fst]; (split; [simpl; lia|]).
  - intros [|j] l Hj; cbn [nth_error] in *; [left; congruence|auto].
  - intros [|j] l Hj; cbn [nth_error] in *; [|auto]. right. assert (c2 = l) by congruence. subst c2. split; auto. intros Hne. destruct c1; [congruence|]. simpl in E. lia.
Qed.
Lemma cleardups_distinct : forall fuel last, (length last <= fuel)%nat ->
  length (fst (cleardups fuel last)) = length last /\
  (forall j l, nth_error (fst (cleardups fuel last)) j = Some l -> l = [] \/ nth_error last j = Some l) /\
  forall i j a b, i <> j -> nth_error (fst (cleardups fuel last)) i = Some a -> nth_error (fst (cleardups fuel last)) j = Some b -> a <> [] -> b <> [] -> hextodec a <> hextodec b.
Proof.
  induction fuel as [|f IH]; intros last Hl.
  - destruct last; [|simpl in Hl; lia]. split; [reflexivity|]. split; [intros [|j] l; discriminate|intros [|i] j a b _; discriminate].
  - destruct last as [|c r]; [split; [reflexivity|]; split; [intros [|j] l; discriminate|intros [|i] j a b _; discriminate]|]. cbn [cleardups].
    destruct (cleardup_props c r) as [L1 P1]. destruct (cleardup c r) as [r1 ch1]. cbn [fst] in *.
    destruct (IH r1) as (L2 & P2 & P3); [simpl in Hl; lia|]. destruct (cleardups f r1) as [r2 ch2]. cbn [fst] in *.
    assert (Q : forall j l, nth_error r2 j = Some l -> l <> [] -> c <> [] -> hextodec c <> hextodec l).
    { intros j l Hj Hne Hc. destruct (P2 j l Hj) as [->|H1]; [congruence|]. destruct (P1 j l H1) as [->|[_ H2]]; [congruence|auto]. }
    split; [simpl; lia|]. split.
    + intros [|j] l Hj; cbn [nth_error] in *; [auto|]. destruct (P2 j l Hj) as [->|H1]; [auto|]. destruct (P1 j l H1) as [->|[H2 _]]; auto.
    + intros [|i] [|j] a b Hij Ha Hb Na Nb; cbn [nth_error] in *; [congruence| | |].
      * assert (c = a) by congruence. subst. eapply Q; eauto.
      * assert (c = b) by congruence. subst. intros E. symmetry in E. revert E. eapply Q; eauto.
      * eapply P3; [|exact Ha|exact Hb|exact Na|exact Nb]. congruence.
Qed.
