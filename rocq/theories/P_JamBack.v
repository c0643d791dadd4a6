(** Lemmas about what JAM messages say. *)
From Verif Require Import Base M_Node4D S_Node4D P_Node4D M_Pat M_Str P_Str M_Cfg M_Mem S_Mem P_Mem M_Pkt S_Pkt P_Pkt M_Net S_Net P_Net M_Echo M_Filter M_Msg S_Msg P_Msg P_MsgText.
From Verif Require Import M_Jam S_Jam M_Link M_JamMb S_JamMb P_JamMb S_JamBack.

Lemma cstr_cstring l : cstring l -> cstr l = l.
Proof. unfold cstring. induction 1 as [|c l H _ IH]; [reflexivity|]. cbn [cstr]. destruct (Z.eqb_spec c 0); [lia|]. f_equal. exact IH. Qed.

(** ** Adding lines *)
(** what is the same in both messages *)
Definition kept (m m' : memmsg) : Prop :=
  Area m' = Area m /\ Attr m' = Attr m /\ Origin4D m' = Origin4D m /\ DateTime m' = DateTime m /\ Cost m' = Cost m.
Definition vnodes (m : memmsg) : Prop := valid4d (OrigNode m) /\ valid4d (DestNode m).
Definition texts (m : memmsg) (ls : list (list Z)) : list (list Z) := match Area m with [] => ls | _ => plain_lines ls end.
Definition grown (m m' : memmsg) (ls : list (list Z)) : Prop :=
  chunks_ok (TextChunks m') /\ vnodes m' /\ mmtext m' = mmtext m ++ concat (texts m ls) /\
  (Area m <> [] -> Path m' = Path m ++ map (fun l => striptrail (firstn 99 (skipn 7 l))) (path_lines ls) /\
     forall o, o = Some (SeenBy m) -> fold_left (fun o l => obind o (AddSeenby (skipn 9 l))) (filter seenbyb ls) o = Some (SeenBy m')).
Definition names (m m' : memmsg) : Prop := From m' = From m /\ To m' = To m /\ Subject m' = Subject m.

Lemma kept_refl m : kept m m.
Proof. unfold kept. auto. Qed.
Lemma kept_trans a b c : kept a b -> kept b c -> kept a c.
Proof. unfold kept. intros (A1 & A2 & A3 & A4 & A5) (B1 & B2 & B3 & B4 & B5). repeat split; congruence. Qed.
Lemma grown_nil m : chunks_ok (TextChunks m) -> vnodes m -> grown m m [].
Proof. intros H1 H2. unfold grown, texts. split; auto. split; auto. split; [destruct (Area m); cbn; rewrite app_nil_r; reflexivity|]. intros _. cbn. rewrite app_nil_r. auto. Qed.
Lemma texts_app m a b : texts m (a ++ b) = texts m a ++ texts m b.
Proof. unfold texts. destruct (Area m); [reflexivity|]. apply filter_app. Qed.
Lemma grown_trans a b c x y : kept a b -> grown a b x -> grown b c y -> grown a c (x ++ y).
Proof.
  intros (Ha & _) (_ & _ & T1 & P1) (C2 & V2 & T2 & P2). unfold grown. split; auto. split; auto. split.
  - rewrite T2, T1, texts_app, concat_app, app_assoc. f_equal. unfold texts. rewrite Ha. reflexivity.
  - intros H. destruct (P1 H) as [P3 P4]. destruct P2 as [P5 P6]; [congruence|]. split.
    + rewrite P5, P3. unfold path_lines. rewrite filter_app, map_app, app_assoc. reflexivity.
    + intros o Ho. rewrite filter_app, fold_left_app. apply P6. apply P4. exact Ho.
Qed.

Lemma valid_point n p : valid4d n -> is_u16 p -> valid4d (set_point n p).
Proof. intros (A & B & C & _) H. repeat split; cbn; try apply A; try apply B; try apply C; apply H. Qed.
Lemma Parse4D_valid s n : Parse4D s = Some n -> valid4d n.
Proof. apply parse_valid. repeat split; cbn; lia. Qed.
Lemma kludge_vnodes m l m' : ProcessKludge m l = Some m' -> vnodes m -> vnodes m'.
Proof.
  intros H Hv. unfold ProcessKludge in H.
  assert (H0 : vnodes (pk_rescanned m l)) by (unfold pk_rescanned; destruct (prefixb _ l); exact Hv).
  destruct (pk_msgid (pk_rescanned m l) l) as [m1|] eqn:E1; [|discriminate]. cbn [obind] in H.
  assert (H1 : vnodes m1). { unfold pk_msgid in E1. destruct (prefixb _ l) in E1; [|congruence]. destruct (from l 8); [|discriminate]. injection E1 as <-. exact H0. }
  destruct (pk_reply m1 l) as [m2|] eqn:E2; [|discriminate]. cbn [obind] in H.
  assert (H2 : vnodes m2). { unfold pk_reply in E2. destruct (prefixb _ l) in E2; [|congruence]. destruct (from l 8); [|discriminate]. injection E2 as <-. exact H1. }
  destruct (Area m2); [|injection H as <-; exact H2].
  destruct (pk_fmpt m2 l) as [m3|] eqn:E3; [|discriminate]. cbn [obind] in H.
  assert (H3 : vnodes m3). { unfold pk_fmpt in E3. destruct (prefixb _ l) in E3; [|congruence]. destruct (from l 6); [|discriminate]. injection E3 as <-. split; [|apply H2]. cbn. apply valid_point; [apply H2|apply u16_range]. }
  destruct (pk_topt m3 l) as [m4|] eqn:E4; [|discriminate]. cbn [obind] in H.
  assert (H4 : vnodes m4). { unfold pk_topt in E4. destruct (prefixb _ l) in E4; [|congruence]. destruct (from l 6); [|discriminate]. injection E4 as <-. split; [apply H3|]. cbn. apply valid_point; [apply H3|apply u16_range]. }
  unfold pk_intl in H. destruct (prefixb _ l) in H; [|congruence]. destruct (from l _) as [s|]; [|discriminate].
  destruct (takeuntil _ 59 s) as [b1 r1]. destruct (takeuntil _ 59 _) as [b2 r2]. injection H as <-.
  destruct H4 as [O4 D4]. destruct (Parse4D b1) as [n1|] eqn:P1; destruct (Parse4D b2) as [n2|] eqn:P2; try apply Parse4D_valid in P1; try apply Parse4D_valid in P2;
    split; cbn; auto; unfold valid4d in *; cbn; tauto.
Qed.
(** no line added is an origin line *)
Definition aline (l : list Z) : Prop := crline l /\ ~ is_origin_line l.
Lemma addline_grown m l : aline l -> chunks_ok (TextChunks m) -> vnodes m ->
  exists m', mmAddLine m l = Some m' /\ kept m m' /\ names m m' /\ grown m m' [l].
Proof.
  intros [Hl Ho] Hc Hv. destruct (Area m) as [|a0 ar] eqn:Ea.
  - destruct (mmAddLine_text m l Hc Hl) as (m' & E & T & C & _ & _ & A & _); [unfold is_echo; congruence|].
    destruct (mmAddLine_frame _ _ _ E) as [Hf _]. exists m'. split; auto.
    assert (Hk : vnodes m' /\ Origin4D m' = Origin4D m).
    { unfold mmAddLine in E. rewrite Ea in E. cbn [andb] in E. destruct (match l with [] => false | c :: _ => c =? 1 end).
      - destruct (ProcessKludge m l) as [m1|] eqn:Ek; [|discriminate]. pose proof (ProcessKludge_frame _ _ _ Ek) as (_ & _ & _ & _ & _ & _ & _ & _ & _ & _ & _ & Eo).
        apply kludge_vnodes in Ek; auto. destruct (mmAddBuf _ _); [|discriminate]. injection E as <-. split; [exact Ek|exact Eo].
      - destruct (mmAddBuf _ _); [|discriminate]. injection E as <-. auto. }
    destruct Hk as [Hk1 Hk2]. unfold P_Pkt.frame in Hf. injection Hf; intros. split; [unfold kept; repeat split; congruence|]. split; [unfold names; repeat split; congruence|].
    unfold grown. split; auto. split; auto. split; [unfold texts; rewrite Ea; cbn; rewrite app_nil_r; exact T|]. congruence.
  - assert (He : is_echo m) by (unfold is_echo; congruence).
    destruct (seenbyb l) eqn:Es.
    + pose proof Es as Es'. apply prefixb_spec in Es'. destruct (mmAddLine_seenby m l He Es' Hl) as (sb & E1 & E2). exists (set_SeenBy m sb). split; auto. split; [unfold kept; auto|]. split; [unfold names; auto|].
      unfold grown. split; [exact Hc|]. split; [exact Hv|]. split; [unfold texts; rewrite Ea; unfold plain_lines; cbn [filter]; rewrite Es; cbn; rewrite app_nil_r; reflexivity|].
      intros _. unfold path_lines. cbn [filter]. rewrite Es. assert (Ep : pathb l = false). { apply prefixb_false. intros (r & ->). discriminate. } rewrite Ep. cbn [andb map fold_left obind]. rewrite app_nil_r. split; [reflexivity|]. intros o ->. cbn [obind SeenBy set_SeenBy]. exact E1.
    + destruct (pathb l) eqn:Ep.
      * pose proof Ep as Ep'. apply prefixb_spec in Ep'. pose proof (mmAddLine_path m l He Ep' Hl) as E. eexists. split; [exact E|]. split; [unfold kept; auto|]. split; [unfold names; auto|].
        unfold grown. split; [exact Hc|]. split; [exact Hv|]. split; [unfold texts; rewrite Ea; unfold plain_lines; cbn [filter]; rewrite Es, Ep; cbn; rewrite app_nil_r; reflexivity|].
        intros _. unfold path_lines. cbn [filter]. rewrite Es, Ep. cbn [andb Path set_Path SeenBy fold_left]. split; [|auto].
        unfold mmAddPath. destruct (Nat.ltb_spec 7 (length l)) as [H7|H7].
        -- destruct (skipn 7 l) eqn:E7; [apply (f_equal (@length Z)) in E7; rewrite skipn_length in E7; cbn in E7; lia|]. cbn [map]. rewrite E7. reflexivity.
        -- rewrite skipn_all2 by lia. cbn. rewrite app_nil_r. reflexivity.
      * destruct (mmAddLine_text m l Hc Hl) as (m' & E & T & C & S & P & A & _).
        { intros _. unfold seenbyb, pathb in *. apply prefixb_false in Es, Ep. split; auto. split; auto. intros H. contradiction. }
        destruct (mmAddLine_frame _ _ _ E) as [Hf Hn]. destruct Hn as [Hn1 Hn2]; [exact He|]. exists m'. split; auto.
        assert (Hk2 : Origin4D m' = Origin4D m).
        { unfold mmAddLine in E. rewrite Ea in E. cbn [andb] in E. unfold seenbyb, pathb in *. change (1 :: lit "PATH:") with (SOH ++ lit "PATH:") in Ep. rewrite Es, Ep in E.
          assert (Eo : prefixb (lit " * Origin: ") l = false) by (apply prefixb_false; exact Ho). rewrite Eo in E.
          destruct (match l with [] => false | c :: _ => c =? 1 end).
          - destruct (ProcessKludge m l) as [m1|] eqn:Ek; [|discriminate]. pose proof (ProcessKludge_frame _ _ _ Ek) as (_ & _ & _ & _ & _ & _ & _ & _ & _ & _ & _ & Eo').
            destruct (mmAddBuf _ _); [|discriminate]. injection E as <-. exact Eo'.
          - destruct (mmAddBuf _ _); [|discriminate]. injection E as <-. auto. }
        unfold P_Pkt.frame in Hf. injection Hf; intros. split; [unfold kept; repeat split; congruence|]. split; [unfold names; repeat split; congruence|].
        unfold grown. split; auto. split; [unfold vnodes in *; rewrite Hn1, Hn2; auto|]. split; [unfold texts; rewrite Ea; unfold plain_lines; cbn [filter]; rewrite Es, Ep; cbn [negb andb concat]; rewrite app_nil_r; exact T|].
        intros _. unfold path_lines. cbn [filter]. rewrite Es, Ep. cbn [andb map fold_left]. rewrite app_nil_r. split; [exact P|]. intros o ->. rewrite S. reflexivity.
Qed.
Lemma addline_nodes m l m' : aline l -> chunks_ok (TextChunks m) -> Area m <> [] \/ isroute l = false -> mmAddLine m l = Some m' -> OrigNode m' = OrigNode m /\ DestNode m' = DestNode m.
Proof.
  intros [Hl _] Hc Hr E. destruct (Area m) as [|a0 ar] eqn:Ea.
  - destruct Hr as [Hr|Hr]; [contradiction|]. destruct (netline_other m l Ea Hc Hl) as (m1 & E1 & _ & _ & H1 & H2 & _).
    { intros (k & Hk & Hs). unfold isroute in Hr. apply orb_false_iff in Hr as [Hr H3]. apply orb_false_iff in Hr as [Hr1 H2]. apply prefixb_false in Hr1, H2, H3.
      cbn [In] in Hk. destruct Hk as [<-|[<-|[<-|[]]]]; contradiction. }
    rewrite E1 in E. injection E as <-. auto.
  - destruct (mmAddLine_frame _ _ _ E) as [_ H]. apply H. congruence.
Qed.

(** ** Fields *)
Definition setif (n : Z) (k : nat) (f : jsub) (old : list Z) : list Z := if sf_lo f =? n then firstn k (sf_data f) else old.
Record fstep (x : jx) (f : jsub) (x' : jx) : Prop := {
  fs_kept : kept (jx_mm x) (jx_mm x');
  fs_grown : grown (jx_mm x) (jx_mm x') (line_of f);
  fs_from : From (jx_mm x') = setif 2 35 f (From (jx_mm x));
  fs_to : To (jx_mm x') = setif 3 35 f (To (jx_mm x));
  fs_subject : Subject (jx_mm x') = setif 6 71 f (Subject (jx_mm x));
  fs_file : jx_file x' = match jx_file x with [] => if sf_lo f =? 9 then sf_data f else [] | y => y end;
  fs_flags : jx_flags x' = jx_flags x;
  fs_nodes : sf_lo f <> 0 -> sf_lo f <> 1 -> (Area (jx_mm x) <> [] \/ Forall (fun l => isroute l = false) (line_of f)) ->
    OrigNode (jx_mm x') = OrigNode (jx_mm x) /\ DestNode (jx_mm x') = DestNode (jx_mm x) }.
Lemma line_aline pre d : (match pre with c :: _ => c = 1 \/ c = 83 | [] => False end) -> cstring pre -> cstring d -> aline (pre ++ d ++ [13]).
Proof.
  intros H Hp Hd. split.
  - split; [repeat (apply cstring_app; split); auto; repeat constructor; lia|]. left. exists (pre ++ d), 13. rewrite app_assoc. auto.
  - intros (r & E). destruct pre as [|c pre]; [contradiction|]. cbn in E. injection E as -> _. destruct H; discriminate.
Qed.
Lemma Parse5D_valid s n d : Parse5D s = Some (n, d) -> valid4d n.
Proof. unfold Parse5D. destruct (cutat _) as [a b]. destruct (Parse4D a) eqn:E; [|discriminate]. intros H. injection H as <- _. apply Parse4D_valid in E. exact E. Qed.
Lemma fieldcpy_ok n d : cstring d -> (length d < n)%nat -> fieldcpy n d = Some d.
Proof. intros Hd H. unfold fieldcpy. destruct (Nat.ltb_spec (length d) n); [|lia]. rewrite cstr_cstring by auto. reflexivity. Qed.
Lemma grown_same m m' : chunks_ok (TextChunks m) -> vnodes m' -> TextChunks m' = TextChunks m -> Path m' = Path m -> SeenBy m' = SeenBy m -> grown m m' [].
Proof.
  intros H1 H2 H3 H4 H5. unfold grown, texts, mmtext. rewrite H3. split; auto. split; auto. split; [destruct (Area m); cbn; rewrite app_nil_r; reflexivity|]. intros _. cbn. rewrite app_nil_r, H4. split; auto. intros o ->. congruence.
Qed.
Lemma jamfield_step x f : fine_field f -> chunks_ok (TextChunks (jx_mm x)) -> vnodes (jx_mm x) ->
  exists x', jamfield x f = Some x' /\ fstep x f x'.
Proof.
  intros (Hd & H03 & Hlen) Hc Hv. destruct f as [lo hi d]. cbn [sf_lo sf_data] in *.
  assert (K : forall pre, (match pre with c :: _ => c = 1 \/ c = 83 | [] => False end) -> cstring pre -> line_of (SF lo hi d) = [pre ++ d ++ [13]] -> lo <> 2 -> lo <> 3 -> lo <> 6 -> lo <> 9 ->
    exists x', option_map (fun mm => JX mm (jx_buf x) (jx_file x) (jx_flags x) (jx_addr x)) (jam_makekludge (jx_mm x) pre d) = Some x' /\ fstep x (SF lo hi d) x').
  { intros pre Hp1 Hp2 El N2 N3 N6 N9. unfold jam_makekludge. rewrite cstr_cstring by auto. pose proof (line_aline pre d Hp1 Hp2 Hd) as Ha.
    destruct (addline_grown (jx_mm x) (pre ++ d ++ [13]) Ha Hc Hv) as (m' & E & H1 & (A1 & A2 & A3) & H3). rewrite E. eexists. split; [reflexivity|].
    constructor; cbn [jx_mm jx_file jx_flags]; unfold setif; cbn [sf_lo sf_data]; auto.
    - rewrite El. exact H3.
    - destruct (Z.eqb_spec lo 2); [contradiction|auto].
    - destruct (Z.eqb_spec lo 3); [contradiction|auto].
    - destruct (Z.eqb_spec lo 6); [contradiction|auto].
    - destruct (Z.eqb_spec lo 9); [contradiction|]. destruct (jx_file x); auto.
    - intros _ _ Hr. eapply addline_nodes; eauto. destruct Hr as [Hr|Hr]; auto. right. rewrite El in Hr. inversion Hr; auto. }
  unfold jamfield. cbn [sf_lo sf_data].
  assert (Hfc : In lo [0; 1; 2; 3; 6; 9] -> fieldcpy 200 d = Some d) by (intros H; apply fieldcpy_ok; auto).
  unfold JAMSFLD_OADDRESS, JAMSFLD_DADDRESS, JAMSFLD_SENDERNAME, JAMSFLD_RECVRNAME, JAMSFLD_MSGID, JAMSFLD_REPLYID, JAMSFLD_SUBJECT, JAMSFLD_PID, JAMSFLD_ENCLFILE, JAMSFLD_FTSKLUDGE, JAMSFLD_SEENBY2D, JAMSFLD_PATH2D, JAMSFLD_FLAGS in *.
  destruct (Z.eqb_spec lo 0) as [->|N0].
  { rewrite Hfc by (cbn; auto 9). cbn [option_map]. eexists. split; [reflexivity|]. constructor; cbn [jx_mm jx_file jx_flags]; unfold setif; cbn [sf_lo sf_data]; cbn [Z.eqb]; try (destruct (Parse5D d) as [[n dm]|]; reflexivity).
    - destruct (Parse5D d) as [[n dm]|]; unfold kept; auto.
    - apply grown_same; auto; [|destruct (Parse5D d) as [[n dm]|]; reflexivity..]. destruct (Parse5D d) as [[n dm]|] eqn:E5; auto. split; [apply Parse5D_valid in E5; exact E5|apply Hv].
    - destruct (jx_file x); auto.
    - congruence. }
  destruct (Z.eqb_spec lo 1) as [->|N1].
  { rewrite Hfc by (cbn; auto 9). cbn [obind]. destruct (jx_addr x).
    - eexists. split; [reflexivity|]. constructor; cbn [jx_mm jx_file jx_flags]; unfold setif; cbn [sf_lo sf_data]; cbn [Z.eqb]; auto; try apply kept_refl; try (apply grown_same; auto); try (destruct (jx_file x); auto); congruence.
    - eexists. split; [reflexivity|]. constructor; cbn [jx_mm jx_file jx_flags]; unfold setif; cbn [sf_lo sf_data]; cbn [Z.eqb]; try (destruct (Parse5D d) as [[n dm]|]; reflexivity).
      + destruct (Parse5D d) as [[n dm]|]; unfold kept; auto.
      + apply grown_same; auto; [|destruct (Parse5D d) as [[n dm]|]; reflexivity..]. destruct (Parse5D d) as [[n dm]|] eqn:E5; auto. split; [apply Hv|apply Parse5D_valid in E5; exact E5].
      + destruct (jx_file x); auto.
      + congruence. }
  destruct (Z.eqb_spec lo 2) as [->|N2].
  { rewrite Hfc by (cbn; auto 9). cbn [option_map]. eexists. split; [reflexivity|]. constructor; cbn [jx_mm jx_file jx_flags]; unfold setif; cbn [sf_lo sf_data]; cbn [Z.eqb Pos.eqb]; auto; try (unfold kept; auto; fail); try (apply grown_same; auto; fail). destruct (jx_file x); auto. }
  destruct (Z.eqb_spec lo 3) as [->|N3].
  { rewrite Hfc by (cbn; auto 9). cbn [option_map]. eexists. split; [reflexivity|]. constructor; cbn [jx_mm jx_file jx_flags]; unfold setif; cbn [sf_lo sf_data]; cbn [Z.eqb Pos.eqb]; auto; try (unfold kept; auto; fail); try (apply grown_same; auto; fail). destruct (jx_file x); auto. }
  destruct (Z.eqb_spec lo 4) as [->|N4]; [apply (K (1 :: lit "MSGID: ")); auto; try lia; litc; repeat constructor; lia|].
  destruct (Z.eqb_spec lo 5) as [->|N5]; [apply (K (1 :: lit "REPLY: ")); auto; try lia; litc; repeat constructor; lia|].
  destruct (Z.eqb_spec lo 6) as [->|N6].
  { rewrite Hfc by (cbn; auto 9). cbn [option_map]. eexists. split; [reflexivity|]. constructor; cbn [jx_mm jx_file jx_flags]; unfold setif; cbn [sf_lo sf_data]; cbn [Z.eqb Pos.eqb]; auto; try (unfold kept; auto; fail); try (apply grown_same; auto; fail). destruct (jx_file x); auto. }
  destruct (Z.eqb_spec lo 7) as [->|N7]; [apply (K (1 :: lit "PID: ")); auto; try lia; litc; repeat constructor; lia|].
  destruct (Z.eqb_spec lo 9) as [->|N9].
  { destruct (jx_file x) eqn:Ef.
    - rewrite Hfc by (cbn; auto 8). cbn [option_map]. eexists. split; [reflexivity|]. constructor; cbn [jx_mm jx_file jx_flags]; unfold setif; cbn [sf_lo sf_data]; cbn [Z.eqb Pos.eqb]; auto; try apply kept_refl; try (apply grown_same; auto; fail). rewrite Ef. reflexivity.
    - exists x. split; [reflexivity|]. constructor; unfold setif; cbn [sf_lo sf_data]; cbn [Z.eqb Pos.eqb]; auto; try apply kept_refl; try (apply grown_same; auto; fail). rewrite Ef. reflexivity. }
  destruct (Z.eqb_spec lo 2000) as [->|Na]; [apply (K [1]); auto; try lia; repeat constructor; try lia|].
  destruct (Z.eqb_spec lo 2001) as [->|Nb]; [apply (K (lit "SEEN-BY: ")); auto; try lia; try (litc; auto; fail); litc; repeat constructor; lia|].
  destruct (Z.eqb_spec lo 2002) as [->|Nc]; [apply (K (1 :: lit "PATH: ")); auto; try lia; litc; repeat constructor; lia|].
  destruct (Z.eqb_spec lo 2003) as [->|Nd]; [contradiction|].
  exists x. split; [reflexivity|]. assert (El : line_of (SF lo hi d) = []).
  { unfold line_of. cbn [sf_lo]. repeat match goal with |- context [?a =? ?b] => destruct (Z.eqb_spec a b); [contradiction|] end. reflexivity. }
  assert (Es : forall n k o, n <> lo -> setif n k (SF lo hi d) o = o) by (intros n k o H; unfold setif; cbn [sf_lo]; destruct (Z.eqb_spec lo n); [congruence|reflexivity]).
  constructor; rewrite ?Es, ?El by congruence; auto; try apply kept_refl; try (apply grown_same; auto; fail). cbn [sf_lo]. destruct (Z.eqb_spec lo 9); [contradiction|]. destruct (jx_file x); auto.
Qed.
Record fsteps (x : jx) (subs : list jsub) (x' : jx) : Prop := {
  fss_kept : kept (jx_mm x) (jx_mm x');
  fss_grown : grown (jx_mm x) (jx_mm x') (lines_of subs);
  fss_from : From (jx_mm x') = fold_left (fun v f => setif 2 35 f v) subs (From (jx_mm x));
  fss_to : To (jx_mm x') = fold_left (fun v f => setif 3 35 f v) subs (To (jx_mm x));
  fss_subject : Subject (jx_mm x') = fold_left (fun v f => setif 6 71 f v) subs (Subject (jx_mm x));
  fss_file : jx_file x' = match jx_file x with [] => firstfile subs | y => y end;
  fss_flags : jx_flags x' = jx_flags x;
  fss_nodes : Forall (fun f => sf_lo f <> 0 /\ sf_lo f <> 1 /\ (Area (jx_mm x) <> [] \/ Forall (fun l => isroute l = false) (line_of f))) subs ->
    OrigNode (jx_mm x') = OrigNode (jx_mm x) /\ DestNode (jx_mm x') = DestNode (jx_mm x) }.
Lemma jamfields_steps subs : forall x, Forall fine_field subs -> chunks_ok (TextChunks (jx_mm x)) -> vnodes (jx_mm x) ->
  exists x', jamfields x subs = Some x' /\ fsteps x subs x'.
Proof.
  induction subs as [|f subs IH]; intros x Hf Hc Hv.
  - exists x. split; [reflexivity|]. constructor; auto; [apply kept_refl|apply grown_nil; auto|destruct (jx_file x); auto].
  - inversion Hf as [|? ? H1 H2]; subst. destruct (jamfield_step x f H1 Hc Hv) as (x1 & E1 & S1). destruct S1 as [K1 G1 F1 T1 U1 L1 A1 N1].
    destruct (IH x1 H2) as (x2 & E2 & S2); [apply G1|apply G1|]. destruct S2 as [K2 G2 F2 T2 U2 L2 A2 N2].
    exists x2. cbn [jamfields]. rewrite E1. cbn [obind]. split; auto. constructor.
    + eapply kept_trans; eauto.
    + unfold lines_of. cbn [flat_map]. eapply grown_trans; eauto.
    + cbn [fold_left]. congruence.
    + cbn [fold_left]. congruence.
    + cbn [fold_left]. congruence.
    + rewrite L2, L1. destruct (jx_file x); auto. unfold firstfile. cbn [find]. destruct (sf_lo f =? 9); cbn [andb]; [|reflexivity]. destruct (sf_data f) eqn:Ed; cbn [length Nat.eqb negb]; [reflexivity|rewrite Ed; reflexivity].
    + congruence.
    + intros H. inversion H as [|? ? (B1 & B2 & B3) B4]; subst. destruct (N1 B1 B2 B3) as [C1 C2]. destruct N2 as [C3 C4].
      * eapply Forall_impl; [|exact B4]. cbv beta. intros g (D1 & D2 & D3). split; auto. split; auto. destruct D3 as [D3|D3]; auto. left. destruct K1 as [-> _]. exact D3.
      * split; congruence.
Qed.
Lemma setif_lastof n k subs : fold_left (fun v f => setif n k f v) subs [] = firstn k (lastof n subs).
Proof.
  unfold lastof. assert (G : forall v, fold_left (fun v f => setif n k f v) subs (firstn k v) = firstn k (fold_left (fun v f => if sf_lo f =? n then sf_data f else v) subs v)).
  { induction subs as [|f subs IH]; intros v; [reflexivity|]. cbn [fold_left]. rewrite <- IH. f_equal. unfold setif. destruct (sf_lo f =? n); reflexivity. }
  rewrite <- G. destruct k; reflexivity.
Qed.

(** ** Attributes *)
Lemma flag1_noflags attr l : forall a, Forall (fun x => jf_fido x <> 0 \/ jf_name x = [] \/ flag attr (jf_jam x) = false) l ->
  fold_left (jamflag1 attr) l (a, []) = (fold_left (fun a x => if flag attr (jf_jam x) then Z.lor a (jf_fido x) else a) l a, []).
Proof.
  induction l as [|x l IH]; intros a H; [reflexivity|]. inversion H as [|? ? H1 H2]; subst. cbn [fold_left]. unfold jamflag1 at 2. destruct (flag attr (jf_jam x)) eqn:Ef; [|apply IH; auto].
  destruct (Z.eqb_spec (jf_fido x) 0) as [E|E]; cbn [negb]; [|apply IH; auto]. destruct H1 as [H1|[H1|H1]]; [contradiction|rewrite H1|discriminate]. rewrite E, Z.lor_0_r. apply IH; auto.
Qed.
Lemma attr_fold attr l : forall a k, Z.testbit (fold_left (fun a x => if flag attr (jf_jam x) then Z.lor a (jf_fido x) else a) l a) k =
  Z.testbit a k || existsb (fun x => flag attr (jf_jam x) && Z.testbit (jf_fido x) k) l.
Proof.
  induction l as [|x l IH]; intros a k; [cbn; rewrite orb_false_r; reflexivity|]. cbn [fold_left existsb]. rewrite IH. destruct (flag attr (jf_jam x)); cbn [andb orb]; [|reflexivity]. rewrite Z.lor_spec, orb_assoc. reflexivity.
Qed.
Lemma plain_noflags attr : plain_attr attr -> Forall (fun x => jf_fido x <> 0 \/ jf_name x = [] \/ flag attr (jf_jam x) = false) jam_flagarray.
Proof.
  intros H. unfold plain_attr in H. rewrite Forall_forall in H.
  assert (G : forall k, In k [6; 9; 10; 14; 15; 17; 22] -> flag attr (2 ^ k) = false).
  { intros k Hk. rewrite flag_pow by (cbn in Hk; lia). apply H. exact Hk. }
  unfold jam_flagarray. repeat apply Forall_cons; try apply Forall_nil; cbn [jf_fido jf_name jf_jam fst snd]; try (left; discriminate); right; right.
  - apply (G 6); cbn; auto 9.
  - apply (G 10); cbn; auto 9.
  - apply (G 9); cbn; auto 9.
  - apply (G 15); cbn; auto 9.
  - apply (G 14); cbn; auto 9.
  - apply (G 17); cbn; auto 9.
  - apply (G 22); cbn; auto 9.
Qed.
Lemma mask_testbit k : 0 <= k -> Z.testbit JAMATTRMASK k = existsb (Z.eqb k) [0; 1; 4; 9; 11; 12; 13; 14].
Proof.
  intros Hk. destruct (Z_lt_le_dec k 15) as [H|H].
  - assert (E : k = 0 \/ k = 1 \/ k = 2 \/ k = 3 \/ k = 4 \/ k = 5 \/ k = 6 \/ k = 7 \/ k = 8 \/ k = 9 \/ k = 10 \/ k = 11 \/ k = 12 \/ k = 13 \/ k = 14) by lia.
    repeat (destruct E as [->|E]; [reflexivity|]). subst. reflexivity.
  - rewrite Z.bits_above_log2; [|discriminate|change (Z.log2 JAMATTRMASK) with 14; lia]. symmetry. cbn [existsb]. repeat match goal with |- context [k =? ?c] => rewrite (proj2 (Z.eqb_neq k c)) by lia end. reflexivity.
Qed.
Lemma pow_testbit j k : 0 <= j -> Z.testbit (2 ^ j) k = (k =? j).
Proof. intros H. destruct (Z.eqb_spec k j) as [->|N]; [apply Z.pow2_bits_true; auto|apply Z.pow2_bits_false; auto]. Qed.
Lemma attr_shown attr a : shown_attr attr (flag a FLAG_FILEATTACH) (Z.land (fold_left (fun a x => if flag attr (jf_jam x) then Z.lor a (jf_fido x) else a) jam_flagarray (if flag a FLAG_FILEATTACH then FLAG_FILEATTACH else 0)) JAMATTRMASK).
Proof.
  intros k Hk. rewrite Z.land_spec, attr_fold, mask_testbit by auto.
  assert (E0 : Z.testbit (if flag a FLAG_FILEATTACH then FLAG_FILEATTACH else 0) k = (k =? 4) && flag a FLAG_FILEATTACH).
  { destruct (flag a FLAG_FILEATTACH); [change FLAG_FILEATTACH with (2 ^ 4); rewrite pow_testbit, andb_true_r by lia; reflexivity|rewrite Z.bits_0, andb_false_r; reflexivity]. }
  rewrite E0. clear E0. set (F := flag a FLAG_FILEATTACH). clearbody F.
  unfold jam_flagarray, attrbits. cbn [existsb jf_jam jf_fido fst snd].
  repeat match goal with |- context [flag attr ?c] => let j := eval cbv in (Z.log2 c) in change (flag attr c) with (flag attr (2 ^ j)); rewrite (flag_pow attr j) by lia end.
  repeat match goal with |- context [Z.testbit ?c k] => match c with attr => fail 1 | 0 => fail 1 | _ => let j := eval cbv in (Z.log2 c) in change (Z.testbit c k) with (Z.testbit (2 ^ j) k); rewrite (pow_testbit j k) by lia end end.
  rewrite ?Z.bits_0, ?andb_false_r, ?orb_false_r, ?orb_false_l.
  destruct (Z_lt_le_dec k 16) as [H|H].
  - assert (E : k = 0 \/ k = 1 \/ k = 2 \/ k = 3 \/ k = 4 \/ k = 5 \/ k = 6 \/ k = 7 \/ k = 8 \/ k = 9 \/ k = 10 \/ k = 11 \/ k = 12 \/ k = 13 \/ k = 14 \/ k = 15) by lia.
    repeat (destruct E as [->|E]; [cbn [Z.eqb Pos.eqb]; rewrite ?andb_false_r, ?andb_true_r, ?orb_false_r, ?andb_false_l, ?orb_false_l; cbn [andb orb]; rewrite ?andb_true_r, ?orb_false_r; try reflexivity; apply orb_comm|]). subst. cbn [Z.eqb Pos.eqb]. rewrite ?andb_false_r, ?orb_false_r. reflexivity.
  - repeat match goal with |- context [k =? ?c] => rewrite (proj2 (Z.eqb_neq k c)) by lia end. rewrite ?andb_false_r. reflexivity.
Qed.

(** ** The message handed on *)
Lemma addopt_grown b m l : aline l -> chunks_ok (TextChunks m) -> vnodes m ->
  exists m', addopt b m l = Some m' /\ kept m m' /\ names m m' /\ grown m m' (if b then [l] else []).
Proof.
  intros Ha Hc Hv. unfold addopt. destruct b; [apply addline_grown; auto|]. exists m. split; auto. split; [apply kept_refl|]. split; [unfold names; auto|]. apply grown_nil; auto.
Qed.
Lemma addopt_nodes b m l m' : aline l -> chunks_ok (TextChunks m) -> Area m <> [] \/ isroute l = false -> addopt b m l = Some m' -> OrigNode m' = OrigNode m /\ DestNode m' = DestNode m.
Proof. intros Ha Hc Hr. unfold addopt. destruct b; [apply addline_nodes; auto|]. intros H. injection H as <-. auto. Qed.
Lemma cstring_dec n : 0 <= n -> cstring (dec n).
Proof. intros H. unfold cstring. eapply Forall_impl; [|apply dec_digits; exact H]. unfold digit. intros; lia. Qed.
Lemma cstring_lit1 l : cstring l -> cstring (1 :: l).
Proof. intros H. constructor; [lia|exact H]. Qed.
Ltac cst := repeat first [apply cstring_lit1 | apply cstring_app; split | litc; fail | apply cstring_dec; assumption].
Lemma jam_intl_aline d o : valid4d d -> valid4d o -> aline (jam_intl d o).
Proof.
  intros (A1 & A2 & A3 & _) (B1 & B2 & B3 & _). destruct A1 as [A1 _], A2 as [A2 _], A3 as [A3 _], B1 as [B1 _], B2 as [B2 _], B3 as [B3 _].
  unfold jam_intl. change (1 :: lit "INTL " ++ dec (zone d) ++ lit ":" ++ dec (net d) ++ lit "/" ++ dec (node d) ++ lit " " ++ dec (zone o) ++ lit ":" ++ dec (net o) ++ lit "/" ++ dec (node o) ++ [13])
    with ((1 :: lit "INTL ") ++ dec (zone d) ++ lit ":" ++ dec (net d) ++ lit "/" ++ dec (node d) ++ lit " " ++ dec (zone o) ++ lit ":" ++ dec (net o) ++ lit "/" ++ dec (node o) ++ [13]).
  replace (dec (zone d) ++ lit ":" ++ dec (net d) ++ lit "/" ++ dec (node d) ++ lit " " ++ dec (zone o) ++ lit ":" ++ dec (net o) ++ lit "/" ++ dec (node o) ++ [13])
    with ((dec (zone d) ++ lit ":" ++ dec (net d) ++ lit "/" ++ dec (node d) ++ lit " " ++ dec (zone o) ++ lit ":" ++ dec (net o) ++ lit "/" ++ dec (node o)) ++ [13]) by (rewrite <- ?app_assoc; reflexivity).
  apply line_aline; [left; reflexivity|litc; repeat constructor; lia|]. repeat (apply cstring_app; split); try (apply cstring_dec; assumption); litc; repeat constructor; lia.
Qed.
Lemma point_aline k p : cstring k -> 0 <= p -> aline (1 :: k ++ dec p ++ [13]).
Proof. intros Hk Hp. change (1 :: k ++ dec p ++ [13]) with ((1 :: k) ++ dec p ++ [13]). apply line_aline; [left; reflexivity|apply cstring_lit1; exact Hk|apply cstring_dec; exact Hp]. Qed.
Lemma rescanned_aline a : valid4d a -> aline (rescanned_line a).
Proof.
  intros (A1 & A2 & A3 & A4). destruct A1 as [A1 _], A2 as [A2 _], A3 as [A3 _], A4 as [A4 _].
  unfold rescanned_line. replace (1 :: lit "RESCANNED " ++ dec (zone a) ++ lit ":" ++ dec (net a) ++ lit "/" ++ dec (node a) ++ lit "." ++ dec (point a) ++ [13])
    with ((1 :: lit "RESCANNED ") ++ (dec (zone a) ++ lit ":" ++ dec (net a) ++ lit "/" ++ dec (node a) ++ lit "." ++ dec (point a)) ++ [13]) by (rewrite <- ?app_assoc; reflexivity).
  apply line_aline; [left; reflexivity|litc; repeat constructor; lia|]. repeat (apply cstring_app; split); try (apply cstring_dec; assumption); litc; repeat constructor; lia.
Qed.
Lemma TID_aline : aline TID.
Proof. change TID with (((1 :: lit "TID: CrashMail II/Linux 1.5.1")) ++ [] ++ [13]). apply line_aline; [left; reflexivity|litc; repeat constructor; lia|constructor]. Qed.
Lemma n4_eta n : N4 (zone n) (net n) (node n) (point n) = n.
Proof. destruct n; reflexivity. Qed.
Lemma jam_intl_eq d o : jam_intl d o = SOH ++ lit "INTL " ++ addr3 d ++ lit " " ++ addr3 o ++ [13].
Proof. unfold jam_intl, addr3. rewrite <- ?app_assoc. reflexivity. Qed.
Lemma intl_nodes m m' : Area m = [] -> chunks_ok (TextChunks m) -> vnodes m -> mmAddLine m (jam_intl (DestNode m) (OrigNode m)) = Some m' -> OrigNode m' = OrigNode m /\ DestNode m' = DestNode m.
Proof.
  intros Ha Hc [Ho Hd] E. rewrite jam_intl_eq in E. pose proof (pk_intl_line m (OrigNode m) (DestNode m) Ho Hd Ha) as Ek.
  destruct (netline_kludge m _ _ Ha Hc Ek) as (cs & E1 & _). change (SOH ++ lit "INTL " ++ addr3 (DestNode m) ++ lit " " ++ addr3 (OrigNode m) ++ [13]) with (1 :: lit "INTL " ++ addr3 (DestNode m) ++ lit " " ++ addr3 (OrigNode m) ++ [13]) in E.
  rewrite E1 in E. injection E as <-. cbn. unfold set_point. rewrite !n4_eta. auto.
Qed.
Lemma fmpt_nodes m m' : Area m = [] -> chunks_ok (TextChunks m) -> vnodes m -> mmAddLine m (1 :: lit "FMPT " ++ dec (point (OrigNode m)) ++ [13]) = Some m' -> OrigNode m' = OrigNode m /\ DestNode m' = DestNode m.
Proof.
  intros Ha Hc [Ho Hd] E. pose proof (pk_fmpt_line m (point (OrigNode m)) [13] ltac:(apply Ho) eq_refl Ha) as Ek.
  destruct (netline_kludge m _ _ Ha Hc Ek) as (cs & E1 & _). rewrite E1 in E. injection E as <-. cbn. unfold set_point. rewrite !n4_eta. auto.
Qed.
Lemma topt_nodes m m' : Area m = [] -> chunks_ok (TextChunks m) -> vnodes m -> mmAddLine m (1 :: lit "TOPT " ++ dec (point (DestNode m)) ++ [13]) = Some m' -> OrigNode m' = OrigNode m /\ DestNode m' = DestNode m.
Proof.
  intros Ha Hc [Ho Hd] E. pose proof (pk_topt_line m (point (DestNode m)) [13] ltac:(apply Hd) eq_refl Ha) as Ek.
  destruct (netline_kludge m _ _ Ha Hc Ek) as (cs & E1 & _). rewrite E1 in E. injection E as <-. cbn. unfold set_point. rewrite !n4_eta. auto.
Qed.
Definition samenodes (m m' : memmsg) : Prop := OrigNode m' = OrigNode m /\ DestNode m' = DestNode m.
Lemma samenodes_trans a b c : samenodes a b -> samenodes b c -> samenodes a c.
Proof. unfold samenodes. intuition congruence. Qed.
Lemma names_trans a b c : names a b -> names b c -> names a c.
Proof. unfold names. intuition congruence. Qed.
(** the routing lines of netmail *)
Lemma routing_step cfg m : Area m = [] -> chunks_ok (TextChunks m) -> vnodes m ->
  exists m', (do mm <- addopt (negb (zone (OrigNode m) =? zone (DestNode m)) || flag (jc_flags cfg) CFG_FORCEINTL) m (jam_intl (DestNode m) (OrigNode m));
              do mm <- addopt (negb (point (OrigNode mm) =? 0)) mm (1 :: lit "FMPT " ++ dec (point (OrigNode mm)) ++ [13]);
              addopt (negb (point (DestNode mm) =? 0)) mm (1 :: lit "TOPT " ++ dec (point (DestNode mm)) ++ [13])) = Some m' /\
    kept m m' /\ names m m' /\ samenodes m m' /\ grown m m' (routing (jc_flags cfg) (OrigNode m) (DestNode m)).
Proof.
  intros Ha Hc Hv.
  destruct (addopt_grown (negb (zone (OrigNode m) =? zone (DestNode m)) || flag (jc_flags cfg) CFG_FORCEINTL) m (jam_intl (DestNode m) (OrigNode m)) (jam_intl_aline _ _ (proj2 Hv) (proj1 Hv)) Hc Hv) as (m1 & E1 & K1 & N1 & G1).
  assert (S1 : samenodes m m1). { unfold addopt in E1. destruct (negb (zone (OrigNode m) =? zone (DestNode m)) || flag (jc_flags cfg) CFG_FORCEINTL); [eapply intl_nodes; eauto|injection E1 as <-; split; auto]. }
  rewrite E1. cbn [obind].
  assert (A1 : Area m1 = []) by (destruct K1; congruence). pose proof G1 as (C1 & V1 & _).
  destruct (addopt_grown (negb (point (OrigNode m1) =? 0)) m1 (1 :: lit "FMPT " ++ dec (point (OrigNode m1)) ++ [13])) as (m2 & E2 & K2 & N2 & G2); auto.
  { apply point_aline; [litc; repeat constructor; lia|apply V1]. }
  assert (S2 : samenodes m1 m2). { unfold addopt in E2. destruct (negb (point (OrigNode m1) =? 0)); [eapply fmpt_nodes; eauto|injection E2 as <-; split; auto]. }
  rewrite E2. cbn [obind].
  assert (A2 : Area m2 = []) by (destruct K2; congruence). pose proof G2 as (C2 & V2 & _).
  destruct (addopt_grown (negb (point (DestNode m2) =? 0)) m2 (1 :: lit "TOPT " ++ dec (point (DestNode m2)) ++ [13])) as (m3 & E3 & K3 & N3 & G3); auto.
  { apply point_aline; [litc; repeat constructor; lia|apply V2]. }
  assert (S3 : samenodes m2 m3). { unfold addopt in E3. destruct (negb (point (DestNode m2) =? 0)); [eapply topt_nodes; eauto|injection E3 as <-; split; auto]. }
  exists m3. split; auto. split; [eapply kept_trans; [|eauto]; eapply kept_trans; eauto|]. split; [eapply names_trans; [|eauto]; eapply names_trans; eauto|]. split; [eapply samenodes_trans; [|eauto]; eapply samenodes_trans; eauto|].
  unfold routing. change (Z.testbit (jc_flags cfg) 3) with (Z.testbit (jc_flags cfg) 3). rewrite <- (flag_pow (jc_flags cfg) 3) by lia. change (2 ^ 3) with CFG_FORCEINTL.
  replace (if point (OrigNode m) =? 0 then [] else [1 :: lit "FMPT " ++ dec (point (OrigNode m)) ++ [13]]) with (if negb (point (OrigNode m1) =? 0) then [1 :: lit "FMPT " ++ dec (point (OrigNode m1)) ++ [13]] else []) by (rewrite (proj1 S1); destruct (point (OrigNode m) =? 0); reflexivity).
  replace (if point (DestNode m) =? 0 then [] else [1 :: lit "TOPT " ++ dec (point (DestNode m)) ++ [13]]) with (if negb (point (DestNode m2) =? 0) then [1 :: lit "TOPT " ++ dec (point (DestNode m2)) ++ [13]] else []) by (rewrite (proj2 S2), (proj2 S1); destruct (point (DestNode m) =? 0); reflexivity).
  eapply grown_trans; [exact K1|exact G1|]. eapply grown_trans; [exact K2|exact G2|exact G3].
Qed.
Lemma mmAddBuf_text cs t : chunks_ok cs -> exists cs', mmAddBuf cs t = Some cs' /\ concat (rev cs') = concat (rev cs) ++ t /\ chunks_ok cs'.
Proof. intros H. destruct (mmAddBuf_spec cs t H) as (cs' & A & B & C). exists cs'. auto. Qed.
(** what is added and does not change the addresses *)
Lemma extra_step cfg resc m : valid4d (jc_aka cfg) -> chunks_ok (TextChunks m) -> vnodes m ->
  exists m', (do mm <- addopt (flag (jc_flags cfg) CFG_ADDTID && negb resc) m TID; addopt resc mm (rescanned_line (jc_aka cfg))) = Some m' /\
    kept m m' /\ names m m' /\ samenodes m m' /\ grown m m' (addedlines cfg resc).
Proof.
  intros Hk Hc Hv.
  destruct (addopt_grown (flag (jc_flags cfg) CFG_ADDTID && negb resc) m TID TID_aline Hc Hv) as (m1 & E1 & K1 & N1 & G1).
  pose proof (addopt_nodes _ _ _ _ TID_aline Hc (or_intror eq_refl) E1) as S1. pose proof G1 as (C1 & V1 & _).
  pose proof (rescanned_aline _ Hk) as Ha.
  destruct (addopt_grown resc m1 (rescanned_line (jc_aka cfg)) Ha C1 V1) as (m2 & E2 & K2 & N2 & G2).
  pose proof (addopt_nodes _ _ _ _ Ha C1 (or_intror eq_refl) E2) as S2.
  rewrite E1. cbn [obind]. exists m2. split; auto. split; [eapply kept_trans; eauto|]. split; [eapply names_trans; eauto|]. split; [eapply samenodes_trans; eauto|].
  pose proof (grown_trans _ _ _ _ _ K1 G1 G2) as G. unfold addedlines. rewrite <- (flag_pow (jc_flags cfg) 16) by lia. change (2 ^ 16) with CFG_ADDTID.
  destruct resc; [rewrite andb_false_r in G; exact G|]. rewrite andb_true_r, app_nil_r in G. exact G.
Qed.
Lemma added_plain cfg resc : plain_lines (addedlines cfg resc) = addedlines cfg resc /\ path_lines (addedlines cfg resc) = [] /\ filter seenbyb (addedlines cfg resc) = [].
Proof. unfold addedlines. destruct resc; [repeat split|]. destruct (Z.testbit _ 16); repeat split. Qed.

Lemma memmsg_spec cfg fidodate resc h subs text : Forall fine_field subs -> plain_attr (h_attr h) -> valid4d (jc_aka cfg) -> (jc_net cfg = false -> jc_tag cfg <> []) ->
  match jam_memmsg cfg fidodate resc h subs text with
  | Some (mm, _) => shown cfg fidodate resc (MSG h subs text) mm /\
      exists x, jamfields (JX (set_Area mm0 (if jc_net cfg then [] else jc_tag cfg)) None [] [] false) subs = Some x /\ samenodes (jx_mm x) mm
  | None => jc_net cfg = false /\ text <> [] /\ jamorigin (length (cstr text)) (cstr text) null4d = None
  end.
Proof.
  intros Hf Hp Hk Ht. unfold jam_memmsg. set (m0 := set_Area mm0 (if jc_net cfg then [] else jc_tag cfg)).
  destruct (jamfields_steps subs (JX m0 None [] [] false) Hf) as (x & Ex & Sx); [constructor|repeat split; cbn; lia|].
  rewrite Ex. cbn [obind].
  destruct Sx as [K G F T U L A _]. cbn [jx_mm jx_file jx_flags] in *. rewrite setif_lastof in F, T, U. rewrite L, A. clear L A.
  set (mx := jx_mm x) in *.
  set (m1 := match firstfile subs with [] => mx | f => set_Subject (set_Attr mx (Z.lor (Attr mx) FLAG_FILEATTACH)) (firstn 71 f) end).
  assert (H1 : Area m1 = Area m0 /\ Origin4D m1 = null4d /\ samenodes mx m1 /\ From m1 = From mx /\ To m1 = To mx /\ Subject m1 = firstn 71 (match firstfile subs with [] => lastof 6 subs | f => f end) /\
    Attr m1 = (if (match firstfile subs with [] => false | _ => true end) then FLAG_FILEATTACH else 0) /\ TextChunks m1 = TextChunks mx /\ SeenBy m1 = SeenBy mx /\ Path m1 = Path mx).
  { destruct K as (K1 & K2 & K3 & _). unfold m1. destruct (firstfile subs); cbn; rewrite ?K2; cbn; repeat split; auto. }
  clearbody m1. destruct H1 as (B1 & B2 & B3 & B4 & B5 & B6 & B7 & B8 & B9 & B10).
  set (ff := match firstfile subs with [] => false | _ => true end) in *.
  cbn [Attr]. rewrite B7. rewrite flag1_noflags by (apply plain_noflags; exact Hp). cbn [obind].
  pose proof (attr_shown (h_attr h) (if ff then FLAG_FILEATTACH else 0)) as Hat.
  replace (flag (if ff then FLAG_FILEATTACH else 0) FLAG_FILEATTACH) with ff in Hat by (destruct ff; reflexivity).
  set (at1 := fold_left _ jam_flagarray _) in *. clearbody at1.
  unfold set_Attr at 1. cbn [OrigNode DestNode PktOrig PktDest Origin4D Area To From Subject DateTime MSGID REPLY Attr Cost Type_ Flags TextChunks SeenBy Path].
  set (m2 := MM (OrigNode m1) (DestNode m1) (PktOrig m1) (PktDest m1) (Origin4D m1) (Area m1) (To m1) (From m1) (Subject m1) (fidodate (h_written h + jc_off cfg)) (MSGID m1) (REPLY m1) (Z.land at1 JAMATTRMASK) (u16 (h_cost h)) (Type_ m1) (Flags m1) (TextChunks m1) (SeenBy m1) (Path m1)).
  destruct G as (Gc & Gv & Gt & Gp).
  assert (C2 : chunks_ok (TextChunks m2)) by (cbn; rewrite B8; exact Gc).
  assert (V2 : vnodes m2) by (destruct B3 as [D1 D2]; split; cbn; [rewrite D1|rewrite D2]; apply Gv).
  assert (R : exists m3, (if jc_net cfg then
              do mm <- addopt (negb (zone (OrigNode m2) =? zone (DestNode m2)) || flag (jc_flags cfg) CFG_FORCEINTL) m2 (jam_intl (DestNode m2) (OrigNode m2));
              do mm <- addopt (negb (point (OrigNode mm) =? 0)) mm (1 :: lit "FMPT " ++ dec (point (OrigNode mm)) ++ [13]);
              addopt (negb (point (DestNode mm) =? 0)) mm (1 :: lit "TOPT " ++ dec (point (DestNode mm)) ++ [13])
            else Some m2) = Some m3 /\ kept m2 m3 /\ names m2 m3 /\ samenodes m2 m3 /\ grown m2 m3 (if jc_net cfg then routing (jc_flags cfg) (OrigNode m2) (DestNode m2) else [])).
  { destruct (jc_net cfg) eqn:En.
    - apply routing_step; auto.
    - exists m2. split; auto. split; [apply kept_refl|]. split; [unfold names; auto|]. split; [unfold samenodes; auto|]. apply grown_nil; auto. }
  destruct R as (m3 & E3 & K3 & N3 & S3 & G3).
  match goal with |- context [obind (if jc_net cfg then ?a else ?b) _] => change (if jc_net cfg then a else b) with (if jc_net cfg then
              do mm <- addopt (negb (zone (OrigNode m2) =? zone (DestNode m2)) || flag (jc_flags cfg) CFG_FORCEINTL) m2 (jam_intl (DestNode m2) (OrigNode m2));
              do mm <- addopt (negb (point (OrigNode mm) =? 0)) mm (1 :: lit "FMPT " ++ dec (point (OrigNode mm)) ++ [13]);
              addopt (negb (point (DestNode mm) =? 0)) mm (1 :: lit "TOPT " ++ dec (point (DestNode mm)) ++ [13])
            else Some m2) end.
  rewrite E3. cbn [obind]. pose proof G3 as (C3 & V3 & _).
  destruct (extra_step cfg resc m3 Hk C3 V3) as (m4 & E4 & K4 & N4 & S4 & G4).
  assert (OA : forall (X : Type) (f : memmsg -> option X), (do mm <- addopt (flag (jc_flags cfg) CFG_ADDTID && negb resc) m3 TID; do mm <- addopt resc mm (rescanned_line (jc_aka cfg)); f mm) = f m4).
  { intros X f. destruct (addopt (flag (jc_flags cfg) CFG_ADDTID && negb resc) m3 TID) as [ma|] eqn:Ea; [|discriminate]. cbn [obind] in *. rewrite E4. reflexivity. }
  rewrite OA. clear OA. 
  pose proof (grown_trans _ _ _ _ _ K3 G3 G4) as G34. pose proof (kept_trans _ _ _ K3 K4) as K34. pose proof (names_trans _ _ _ N3 N4) as N34. pose proof (samenodes_trans _ _ _ S3 S4) as S34.
  clear E3 E4 G3 K3 N3 S3 K4 N4 S4 G4 C3 V3. clear m3.
  assert (A4 : Area m4 = Area m0) by (destruct K34 as (-> & _); exact B1).
  assert (O4 : Origin4D m4 = null4d) by (destruct K34 as (_ & _ & -> & _); exact B2).
  assert (SH : forall mm, samenodes m4 mm -> kept m4 (set_Origin4D mm null4d) -> names m4 mm -> mmtext mm = mmtext m4 ++ text -> SeenBy mm = SeenBy m4 -> Path mm = Path m4 -> 
    shown cfg fidodate resc (MSG h subs text) mm /\ exists x0, Some x = Some x0 /\ samenodes (jx_mm x0) mm).
  { intros mm Q1 Q2 Q3 Q4 Q5 Q6. split; [|exists x; split; auto; eapply samenodes_trans; [exact B3|]; eapply samenodes_trans; [|exact Q1]; exact S34].
    unfold shown. cbn [a_subs a_hdr a_text]. destruct K34 as (J1 & J2 & J3 & J4 & J5). destruct N34 as (I1 & I2 & I3). destruct Q2 as (Q21 & Q22 & _ & Q24 & Q25). destruct Q3 as (Q31 & Q32 & Q33). cbn in Q21, Q22, Q24, Q25.
    destruct G34 as (_ & _ & T34 & P34).
    split; [rewrite Q31, I1; cbn; rewrite B4; exact F|]. split; [rewrite Q32, I2; cbn; rewrite B5; exact T|]. split; [rewrite Q33, I3; exact B6|]. split; [rewrite Q24, J4; reflexivity|]. split; [rewrite Q25, J5; reflexivity|].
    split; [rewrite Q22, J2; exact Hat|].
    assert (Tx : mmtext m2 = concat (texts m0 (lines_of subs))).
    { unfold mmtext. cbn [TextChunks m2]. rewrite B8. exact Gt. }
    assert (Ar : Area m0 = if jc_net cfg then [] else jc_tag cfg) by reflexivity.
    destruct (jc_net cfg) eqn:En.
    - split; [congruence|]. rewrite Q4, T34, Tx. unfold texts. replace (Area m2) with (@nil Z) by (cbn; congruence). rewrite Ar. rewrite concat_app, <- ?app_assoc.
      destruct Q1 as [Q11 Q12], S34 as [S341 S342]. rewrite Q11, Q12, S341, S342. reflexivity.
    - split; [congruence|]. specialize (Ht eq_refl). assert (Ne : Area m2 <> []) by (cbn; congruence). destruct (P34 Ne) as [P341 P342]. destruct Gp as [Gp1 Gp2]; [congruence|].
      rewrite Q4, T34, Tx, Q6, P341. unfold texts. destruct (Area m2) as [|c0 r0] eqn:E2; [contradiction|]. destruct (Area m0) as [|c1 r1] eqn:E1; [congruence|].
      destruct (added_plain cfg resc) as (Pl1 & Pl2 & Pl3). rewrite app_nil_l, Pl1, Pl2 in *. cbn [map]. rewrite app_nil_r. split; [rewrite <- app_assoc; reflexivity|]. split; [cbn; rewrite B10, Gp1; reflexivity|].
      specialize (P342 _ eq_refl). rewrite Pl3 in P342. cbn [fold_left] in P342. injection P342 as P342. rewrite Q5, <- P342. cbn [SeenBy m2]. rewrite B9. apply Gp2. reflexivity. }
  destruct text as [|t0 tr] eqn:Etext.
  - cbn [obind]. apply SH; cbn; try (split; reflexivity); try reflexivity; [unfold kept; cbn; rewrite O4; auto|unfold names; auto|unfold mmtext; cbn; rewrite app_nil_r; reflexivity].
  - assert (Io : isnet m4 = jc_net cfg). { unfold isnet. rewrite A4. unfold m0. cbn. destruct (jc_net cfg) eqn:En; [reflexivity|]. specialize (Ht eq_refl). destruct (jc_tag cfg); [contradiction|reflexivity]. }
    rewrite Io, O4. destruct G34 as (C4 & _).
    destruct (mmAddBuf_text (TextChunks m4) (t0 :: tr) C4) as (cs & Ecs & Tcs & _).
    destruct (if jc_net cfg then Some null4d else jamorigin (length (cstr (t0 :: tr))) (cstr (t0 :: tr)) null4d) as [o|] eqn:Eo.
    + cbn [obind]. rewrite Ecs. cbn [option_map obind]. apply SH; cbn; try (split; reflexivity); try reflexivity; [unfold kept; cbn; rewrite O4; auto|unfold names; auto|unfold mmtext; cbn; exact Tcs].
    + cbn [obind]. destruct (jc_net cfg); [discriminate|]. split; auto. split; [discriminate|exact Eo].
Qed.
