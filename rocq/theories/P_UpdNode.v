(** A node that is written is read back. *)
From Verif Require Import Base M_Node4D M_Str M_Mem M_Cfg M_Fs M_Out M_Upd S_Str S_Node4D P_Str P_Node4D S_Upd P_UpdTok P_UpdBlk.

(** ** Flags *)
Lemma flag_bit f k : 0 <= k -> flag f (2 ^ k) = Z.testbit f k.
Proof.
  intros Hk. unfold flag. destruct (Z.testbit f k) eqn:E.
  - destruct (Z.eqb_spec (Z.land f (2 ^ k)) 0) as [H|H]; [|reflexivity]. exfalso. apply (f_equal (fun x => Z.testbit x k)) in H.
    rewrite Z.land_spec, E, Z.pow2_bits_true, Z.bits_0 in H by lia. discriminate.
  - replace (Z.land f (2 ^ k)) with 0; [reflexivity|]. symmetry. apply Z.bits_inj'. intros n Hn. rewrite Z.land_spec, Z.bits_0.
    destruct (Z.eq_dec n k) as [->|Hne]; [rewrite E; reflexivity|]. rewrite Z.pow2_bits_false by auto. apply andb_false_r.
Qed.
Definition sel (f b : Z) : Z := if flag f b then b else 0.
Lemma sel_bit f k n : 0 <= k -> 0 <= n -> Z.testbit (sel f (2 ^ k)) n = if n =? k then Z.testbit f k else false.
Proof.
  intros Hk Hn. unfold sel. rewrite flag_bit by auto. destruct (Z.eqb_spec n k) as [->|Hne].
  - destruct (Z.testbit f k) eqn:E; [rewrite Z.pow2_bits_true; auto|apply Z.bits_0].
  - destruct (Z.testbit f k); [rewrite Z.pow2_bits_false; auto|apply Z.bits_0].
Qed.
Fixpoint bits_of (f : Z) (l : list Z) : Z := match l with [] => 0 | k :: r => Z.lor (sel f (2 ^ k)) (bits_of f r) end.
Lemma bits_of_spec f l n : Forall (fun k => 0 <= k) l -> 0 <= n -> Z.testbit (bits_of f l) n = existsb (Z.eqb n) l && Z.testbit f n.
Proof.
  intros H Hn. induction H as [|k l Hk Hl IH]; cbn [bits_of existsb]; [apply Z.bits_0|]. rewrite Z.lor_spec, sel_bit, IH by auto.
  destruct (Z.eqb_spec n k) as [->|]; cbn [orb]; [destruct (existsb _ _), (Z.testbit f k); reflexivity|reflexivity].
Qed.
Lemma bits_all f m l : 0 <= f < 2 ^ m -> 0 <= m -> Forall (fun k => 0 <= k) l -> (forall n, 0 <= n < m -> existsb (Z.eqb n) l = true) -> bits_of f l = f.
Proof.
  intros Hf Hm Hl Hc. apply Z.bits_inj'. intros n Hn. rewrite bits_of_spec by auto. destruct (Z_lt_ge_dec n m) as [H|H].
  - rewrite Hc by lia. reflexivity.
  - replace (Z.testbit f n) with false; [apply andb_false_r|]. symmetry. destruct (Z.eq_dec f 0) as [->|Hne]; [apply Z.bits_0|].
    apply Z.bits_above_log2; [lia|]. apply Z.lt_le_trans with m; [apply Z.log2_lt_pow2; lia|lia].
Qed.
Lemma node_bits f : 0 <= f < 4096 ->
  Z.lor (Z.lor (Z.lor (Z.lor (Z.lor (Z.lor (Z.lor (Z.lor (Z.lor (Z.lor (Z.lor (Z.lor 0 (sel f NODE_PASSIVE)) (sel f UNODE_NOTIFY)) (sel f NODE_NOSEENBY)) (sel f NODE_TINYSEENBY))
    (sel f NODE_FORWARDREQ)) (sel f NODE_PACKNETMAIL)) (sel f NODE_NONETMAILPASSWORD)) (sel f UNODE_SENDAREAFIX)) (sel f UNODE_SENDTEXT)) (sel f NODE_AUTOADD))
    (sel f NODE_PKTFROM)) (sel f UNODE_AFNEEDSPLUS) = f.
Proof.
  intros Hf. transitivity (bits_of f [1; 5; 3; 2; 4; 6; 11; 7; 8; 0; 9; 10]).
  - rewrite Z.lor_0_l, <- !Z.lor_assoc. cbn [bits_of]. rewrite Z.lor_0_r. reflexivity.
  - apply (bits_all f 12); auto; [lia|repeat (apply Forall_cons; [lia|]); constructor|]. intros n Hn.
    assert (Hx : n = 0 \/ n = 1 \/ n = 2 \/ n = 3 \/ n = 4 \/ n = 5 \/ n = 6 \/ n = 7 \/ n = 8 \/ n = 9 \/ n = 10 \/ n = 11) by lia.
    decompose [or] Hx; subst n; reflexivity.
Qed.

(** ** The switches of a NODE line *)
Definition wif (b : bool) (s : String.string) : list (list Z) := if b then [lit s] else [].
Definition flagwords (n : fnode) : list (list Z) :=
  wif (flag (fn_flags n) NODE_PASSIVE) "PASSIVE" ++ wif (flag (fn_flags n) UNODE_NOTIFY) "NOTIFY" ++
  wif (flag (fn_flags n) NODE_NOSEENBY) "NOSEENBY" ++ wif (flag (fn_flags n) NODE_TINYSEENBY) "TINYSEENBY" ++
  wif (flag (fn_flags n) NODE_FORWARDREQ) "FORWARDREQ" ++ wif (flag (fn_flags n) NODE_PACKNETMAIL) "PACKNETMAIL" ++
  wif (flag (fn_flags n) NODE_NONETMAILPASSWORD) "NONETMAILPASSWORD" ++
  wif (flag (fn_flags n) UNODE_SENDAREAFIX) "SENDAREAFIX" ++ wif (flag (fn_flags n) UNODE_SENDTEXT) "SENDTEXT" ++
  wif (flag (fn_flags n) NODE_AUTOADD) "AUTOADD" ++
  wif (fn_pri n =? PKTS_CRASH) "CRASH" ++ wif (fn_pri n =? PKTS_DIRECT) "DIRECT" ++ wif (fn_pri n =? PKTS_HOLD) "HOLD".
Lemma spaced_app a b : spaced (a ++ b) = spaced a ++ spaced b.
Proof. unfold spaced. apply flat_map_app. Qed.
Lemma nodeflags_words n : nodeflags n = spaced (flagwords n).
Proof.
  unfold nodeflags, flagwords. rewrite !spaced_app. unfold opt, wif.
  repeat (apply (f_equal2 (@app Z)); [match goal with |- context [if ?b then _ else _] => destruct b; reflexivity end|]).
  destruct (fn_pri n =? PKTS_HOLD); reflexivity.
Qed.
Definition switchword (w : list Z) : Prop := plainword w /\ cl w /\ (length w < 20)%nat.
Lemma flagwords_ok n : Forall switchword (flagwords n) /\ (length (flagwords n) <= 13)%nat.
Proof.
  unfold flagwords. split.
  - repeat (apply Forall_app; split); unfold wif;
    (match goal with |- context [if ?b then _ else _] => destruct b; [|constructor] end; constructor; [split; [apply lit_plain; [reflexivity|litc; discriminate]|split; [apply cl_lit; reflexivity|litc; cbn; lia]]|constructor]).
  - rewrite !app_length. assert (H : forall b s, (length (wif b s) <= 1)%nat) by (intros []; cbn; lia).
    repeat match goal with |- context [length (wif ?b ?s)] => let x := fresh in set (x := length (wif b s)); assert (x <= 1)%nat by (subst x; apply H); clearbody x end. lia.
Qed.
Lemma spaced_bound ws m : Forall (fun w => length w < m)%nat ws -> (length (spaced ws) <= m * length ws)%nat.
Proof.
  induction 1 as [|w ws Hw Hws IH]; [cbn; lia|]. cbn [spaced flat_map app length]. rewrite app_length. fold (spaced ws). lia.
Qed.
Lemma ns_step b w bit r fl pri : (forall fl pri, nodeswitch (lit w) (fl, pri) = Some (Z.lor fl bit, pri)) ->
  nodeswitches (wif b w ++ r) (fl, pri) = nodeswitches r (Z.lor fl (if b then bit else 0), pri).
Proof. intros H. destruct b; cbn [wif app nodeswitches]; [rewrite H; reflexivity|]. rewrite Z.lor_0_r. reflexivity. Qed.
Lemma switches_read n : 1 <= fn_pri n <= 4 ->
  nodeswitches (flagwords n) (0, PKTS_NORMAL) =
  Some (Z.lor (Z.lor (Z.lor (Z.lor (Z.lor (Z.lor (Z.lor (Z.lor (Z.lor (Z.lor 0 (sel (fn_flags n) NODE_PASSIVE)) (sel (fn_flags n) UNODE_NOTIFY)) (sel (fn_flags n) NODE_NOSEENBY))
    (sel (fn_flags n) NODE_TINYSEENBY)) (sel (fn_flags n) NODE_FORWARDREQ)) (sel (fn_flags n) NODE_PACKNETMAIL)) (sel (fn_flags n) NODE_NONETMAILPASSWORD))
    (sel (fn_flags n) UNODE_SENDAREAFIX)) (sel (fn_flags n) UNODE_SENDTEXT)) (sel (fn_flags n) NODE_AUTOADD), fn_pri n).
Proof.
  intros Hp. unfold flagwords.
  do 10 (erewrite ns_step by (intros; reflexivity)). fold (sel (fn_flags n) NODE_PASSIVE).
  assert (Hx : fn_pri n = 1 \/ fn_pri n = 2 \/ fn_pri n = 3 \/ fn_pri n = 4) by lia. unfold sel.
  decompose [or] Hx; match goal with E : fn_pri n = _ |- _ => rewrite E; reflexivity end.
Qed.

Lemma onlast_app {A} (f : A -> option A) l x : onlast f (l ++ [x]) = do y <- f x; Some (l ++ [y]).
Proof.
  induction l as [|a l IH]; [cbn; reflexivity|]. cbn [app onlast]. rewrite IH. destruct (l ++ [x]) eqn:E; [destruct l; discriminate|].
  destruct (f x); reflexivity.
Qed.
Lemma lastnode_app f c l x y : f x = Some y -> lastnode f (setnodes c (l ++ [x])) = Some (setnodes c (l ++ [y])).
Proof. intros H. unfold lastnode. cbn [cf_nodes setnodes]. rewrite onlast_app, H. reflexivity. Qed.

Ltac kwok := match goal with
  | |- plainword (lit _) => apply lit_plain; [reflexivity|litc; discriminate]
  | |- (length (lit _) < _)%nat => litc; cbn [length]; lia
  | |- existsb _ _ = true => reflexivity
  | |- cl (lit _) => apply cl_lit; reflexivity
  end.

Lemma cs_nl r : cl r -> cstring (r ++ [10]).
Proof. intros (H & _). apply cstring_app. split; auto. constructor; [lia|constructor]. Qed.
Lemma cl_spaced ws : Forall cl ws -> cl (spaced ws).
Proof. induction 1 as [|w ws Hw Hws IH]; [apply cl_nil|]. cbn [spaced flat_map]. apply (cl_app (32 :: w)); auto. apply cl_sp. auto. Qed.
Lemma findpos_first {A} (f : A -> bool) l i x : nth_error l i = Some x -> f x = true ->
  (forall j y, (j < i)%nat -> nth_error l j = Some y -> f y = false) -> findpos f l = Some i.
Proof.
  revert i. induction l as [|a l IH]; intros i Hi Hx Hj; [destruct i; discriminate|]. cbn [findpos]. destruct i as [|i].
  - cbn in Hi. injection Hi as ->. rewrite Hx. reflexivity.
  - rewrite (Hj O a) by (try reflexivity; lia). cbn in Hi. rewrite (IH i); auto. intros j y Hlt Hy. apply (Hj (S j)); [lia|exact Hy].
Qed.
Lemma compare_refl n : Compare4D n n = 0.
Proof. unfold Compare4D. rewrite !Z.gtb_ltb, !Z.ltb_irrefl. destruct (_ && _); reflexivity. Qed.
Lemma found_pos n l i : found n l i -> findpos (fun k => Compare4D n k =? 0) l = Some i.
Proof.
  intros (H1 & _ & H2). eapply findpos_first; [exact H1|rewrite compare_refl; reflexivity|]. intros j y Hj Hy. specialize (H2 j y Hj Hy).
  destruct (Z.eqb_spec (Compare4D n y) 0); congruence.
Qed.
Lemma streqi_refl s : streqi s s = true.
Proof. unfold streqi. apply streq_eq. reflexivity. Qed.

Section Node.
  Variable okother : list (list Z) -> list node4d -> list (list Z) -> list node4d -> list Z -> bool.
  Notation blk := (blk okother).

  Lemma head_blk c n pk pw fl : valid4d (fn_node n) -> field 9 pw -> field 10 pk -> 1 <= fn_pri n <= 4 -> forall pi, packerof (cf_packers c) pk = Some pi ->
    fn_flags n = fl ->
    blk c (lit "NODE " ++ WriteNode4D (fn_node n) ++ lit " " ++ q pk ++ lit " " ++ q pw ++ nodeflags n ++ [10])
        (setnodes c (cf_nodes c ++ [FN false (fn_node n) pw pi [] [] [] [] 0
           (Z.lor (Z.lor (Z.lor (Z.lor (Z.lor (Z.lor (Z.lor (Z.lor (Z.lor (Z.lor 0 (sel fl NODE_PASSIVE)) (sel fl UNODE_NOTIFY)) (sel fl NODE_NOSEENBY))
    (sel fl NODE_TINYSEENBY)) (sel fl NODE_FORWARDREQ)) (sel fl NODE_PACKNETMAIL)) (sel fl NODE_NONETMAILPASSWORD))
    (sel fl UNODE_SENDAREAFIX)) (sel fl UNODE_SENDTEXT)) (sel fl NODE_AUTOADD)) [] (fn_pri n) (N4 0 0 0 0) [] []])).
  Proof using Type.
    intros Hn Hpw Hpk Hpri pi Hpi <-. rewrite nodeflags_words. destruct (flagwords_ok n) as [Hfw Hfl].
    assert (Hcl : cl (spaced (flagwords n))) by (apply cl_spaced; eapply Forall_impl; [|exact Hfw]; unfold switchword; tauto).
    assert (Hfb : (length (spaced (flagwords n)) <= 20 * 13)%nat).
    { etransitivity; [apply (spaced_bound _ 20); eapply Forall_impl; [|exact Hfw]; unfold switchword; tauto|lia]. }
    replace (lit "NODE " ++ WriteNode4D (fn_node n) ++ lit " " ++ q pk ++ lit " " ++ q pw ++ spaced (flagwords n) ++ [10])
      with (lit "NODE" ++ 32 :: (WriteNode4D (fn_node n) ++ 32 :: q pk ++ 32 :: q pw ++ spaced (flagwords n)) ++ [10])
      by (litc; cbn [app]; repeat (rewrite <- ?app_assoc; cbn [app]); reflexivity).
    apply blk_kw; try kwok.
    - apply cl_sp, cl_app; [apply cl_addr; auto|]. apply cl_sp. apply cl_app; [eapply cl_field; eauto|]. apply cl_sp. apply cl_app; [eapply cl_field; eauto|auto].
    - pose proof (addr_length _ Hn). pose proof (q_length _ _ Hpw). pose proof (q_length _ _ Hpk). litc. rewrite !app_length. cbn [length]. rewrite !app_length. cbn [length]. rewrite !app_length. lia.
    - intros Et. unfold rdline. rewrite Et.
      change (rof (rdNode c ((WriteNode4D (fn_node n) ++ 32 :: q pk ++ 32 :: q pw ++ spaced (flagwords n)) ++ [10])) = ROk (setnodes c (cf_nodes c ++ [FN false (fn_node n) pw pi [] [] [] [] 0
           (Z.lor (Z.lor (Z.lor (Z.lor (Z.lor (Z.lor (Z.lor (Z.lor (Z.lor (Z.lor 0 (sel (fn_flags n) NODE_PASSIVE)) (sel (fn_flags n) UNODE_NOTIFY)) (sel (fn_flags n) NODE_NOSEENBY))
    (sel (fn_flags n) NODE_TINYSEENBY)) (sel (fn_flags n) NODE_FORWARDREQ)) (sel (fn_flags n) NODE_PACKNETMAIL)) (sel (fn_flags n) NODE_NONETMAILPASSWORD))
    (sel (fn_flags n) UNODE_SENDAREAFIX)) (sel (fn_flags n) UNODE_SENDTEXT)) (sel (fn_flags n) NODE_AUTOADD)) [] (fn_pri n) (N4 0 0 0 0) [] []]))).
      unfold rdNode.
      replace ((WriteNode4D (fn_node n) ++ 32 :: q pk ++ 32 :: q pw ++ spaced (flagwords n)) ++ [10]) with
        (WriteNode4D (fn_node n) ++ 32 :: (q pk ++ 32 :: q pw ++ (spaced (flagwords n) ++ [10]))) by (repeat (rewrite <- ?app_assoc; cbn [app]); reflexivity).
      pose proof (cs_nl _ Hcl) as C1. pose proof (proj1 (cl_field _ _ Hpw)) as C2. pose proof (proj1 (cl_field _ _ Hpk)) as C3.
      assert (C4 : cstring (32 :: q pw ++ spaced (flagwords n) ++ [10])) by (constructor; [lia|]; apply cstring_app; auto).
      assert (C5 : cstring (q pk ++ 32 :: q pw ++ spaced (flagwords n) ++ [10])) by (apply cstring_app; auto).
      rewrite tok_plain; [|apply addr_plain; auto|auto|pose proof (addr_length _ Hn); lia|lia|auto]. change (32 =? 32) with true. cbv iota beta.
      unfold Parse4D. rewrite write_parse by auto. cbn [obind]. rewrite tok_q by (auto; lia). rewrite Hpi. cbn [obind]. rewrite tok_sq by (auto; lia).
      rewrite allwords_spaced; [|lia|eapply Forall_impl; [|exact Hfw]; unfold switchword; cbn beta; intros w (A & _ & B); split; [auto|lia]].
      rewrite switches_read by auto. cbn [obind fst snd rof]. reflexivity.
  Qed.

  Definition withnode (c : fconf) (l : list fnode) (x : fnode) : fconf := setnodes c (l ++ [x]).
  Lemma from_blk c l x a (b : bool) : fn_pktfrom x = N4 0 0 0 0 -> (b = true -> valid4d a) -> (b = false -> a = N4 0 0 0 0) ->
    blk (withnode c l x) (if b then lit "PKTFROM " ++ WriteNode4D a ++ [10] else [])
        (withnode c l (FN (fn_changed x) (fn_node x) (fn_pw x) (fn_packer x) (fn_afpw x) (fn_groups x) (fn_rogroups x) (fn_addgroups x)
             (fn_defgroup x) (Z.lor (fn_flags x) (if b then NODE_PKTFROM else 0)) (fn_sysop x) (fn_pri x) a (fn_rafname x) (fn_rafpw x))).
  Proof using Type.
    intros Hx Ha Hb. destruct b.
    - specialize (Ha eq_refl). change (lit "PKTFROM " ++ WriteNode4D a ++ [10]) with (lit "PKTFROM" ++ 32 :: WriteNode4D a ++ [10]). apply blk_kw; try kwok.
      + apply cl_sp, cl_addr; auto.
      + pose proof (addr_length _ Ha). litc. cbn [length]. lia.
      + intros Et. unfold rdline. rewrite Et.
        match goal with |- _ = ROk ?res => change (rof (lastnode (rdPktFrom (WriteNode4D a ++ [10])) (setnodes c (l ++ [x]))) = ROk res) end.
        unfold withnode. erewrite lastnode_app; [reflexivity|]. unfold rdPktFrom.
        rewrite tok_plain; [|apply addr_plain; auto|constructor|pose proof (addr_length _ Ha); lia|lia|auto]. unfold Parse4D. rewrite write_parse by auto. reflexivity.
    - rewrite (Hb eq_refl), Z.lor_0_r, <- Hx. destruct x; cbn. apply blk_nil.
  Qed.
  Lemma info_blk c l x p g r a : field 40 p -> groups g -> groups r -> groups a -> fn_afpw x = [] -> fn_groups x = [] -> fn_rogroups x = [] -> fn_addgroups x = [] ->
    exists t, (if ne p || ne g || ne r || ne a then
                do q1 <- WriteSafely p; do q2 <- WriteSafely g;
                do q3 <- WriteSafely r; do q4 <- WriteSafely a;
                Some (lit "AREAFIXINFO " ++ q1 ++ lit " " ++ q2 ++ lit " " ++ q3 ++ lit " " ++ q4 ++ lit " " ++ [10])
              else Some []) = Some t /\
    blk (withnode c l x) t
        (withnode c l (FN (fn_changed x) (fn_node x) (fn_pw x) (fn_packer x) p g r a
             (fn_defgroup x) (fn_flags x) (fn_sysop x) (fn_pri x) (fn_pktfrom x) (fn_rafname x) (fn_rafpw x))).
  Proof using Type.
    intros Hp Hg Hr Ha E1 E2 E3 E4. destruct (ne p || ne g || ne r || ne a) eqn:E.
    - assert (Fg : field 30 g) by (destruct Hg; apply letters_field; auto). assert (Fr : field 30 r) by (destruct Hr; apply letters_field; auto). assert (Fa : field 30 a) by (destruct Ha; apply letters_field; auto).
      rewrite (WS 40 p), (WS 30 g), (WS 30 r), (WS 30 a) by (auto; lia). cbn [obind]. eexists. split; [reflexivity|].
      replace (lit "AREAFIXINFO " ++ q p ++ lit " " ++ q g ++ lit " " ++ q r ++ lit " " ++ q a ++ lit " " ++ [10])
        with (lit "AREAFIXINFO" ++ 32 :: (q p ++ 32 :: q g ++ 32 :: q r ++ 32 :: q a ++ [32]) ++ [10])
        by (litc; cbn [app]; repeat (rewrite <- ?app_assoc; cbn [app]); reflexivity).
      apply blk_kw; try kwok.
      + repeat (apply cl_sp || (apply cl_app; [eapply cl_field; eauto|])). apply cl_nil.
      + pose proof (q_length _ _ Hp). pose proof (q_length _ _ Fg). pose proof (q_length _ _ Fr). pose proof (q_length _ _ Fa). litc. repeat (rewrite ?app_length; cbn [length]). lia.
      + intros Et. unfold rdline. rewrite Et.
        match goal with |- _ = ROk ?res => change (rdAreafixInfo (setnodes c (l ++ [x])) ((q p ++ 32 :: q g ++ 32 :: q r ++ 32 :: q a ++ [32]) ++ [10]) = ROk res) end.
        unfold rdAreafixInfo. cbn [cf_nodes setnodes]. destruct (l ++ [x]) eqn:El; [destruct l; discriminate|]. rewrite <- El. clear El.
        replace ((q p ++ 32 :: q g ++ 32 :: q r ++ 32 :: q a ++ [32]) ++ [10]) with (q p ++ 32 :: q g ++ (32 :: q r ++ (32 :: q a ++ [32; 10]))) by (repeat (rewrite <- ?app_assoc; cbn [app]); reflexivity).
        pose proof (proj1 (cl_field _ _ Fg)) as C1. pose proof (proj1 (cl_field _ _ Fr)) as C2. pose proof (proj1 (cl_field _ _ Fa)) as C3.
        assert (D1 : cstring [32; 10]) by (constructor; [lia|]; constructor; [lia|constructor]).
        assert (D2 : cstring (32 :: q a ++ [32; 10])) by (constructor; [lia|]; apply cstring_app; auto).
        assert (D3 : cstring (32 :: q r ++ 32 :: q a ++ [32; 10])) by (constructor; [lia|]; apply cstring_app; auto).
        rewrite tok_q; [|auto|constructor; [lia|]; apply cstring_app; auto|lia].
        rewrite (q_app g), tokgroups_ok, (q_app r), tokgroups_ok, (q_app a), tokgroups_ok by auto.
        fold (withnode c l x). unfold withnode at 1. erewrite lastnode_app; reflexivity.
    - exists []. split; auto. apply orb_false_iff in E as [E Ea]. apply orb_false_iff in E as [E Er]. apply orb_false_iff in E as [Ep Eg].
      destruct p, g, r, a; try discriminate. destruct x; cbn in *. subst. apply blk_nil.
  Qed.
  Lemma raf_blk c l x nm pw (b : bool) : field 36 nm -> field 72 pw -> fn_rafname x = [] -> fn_rafpw x = [] -> (nm = [] -> pw = [] /\ b = false) ->
    exists t, (if ne nm then
               do q1 <- WriteSafely nm; do q2 <- WriteSafely pw;
               Some (lit "REMOTEAF " ++ q1 ++ lit " " ++ q2 ++ opt b " NEEDSPLUS" ++ [10])
             else Some []) = Some t /\
    blk (withnode c l x) t
        (withnode c l (FN (fn_changed x) (fn_node x) (fn_pw x) (fn_packer x) (fn_afpw x) (fn_groups x) (fn_rogroups x) (fn_addgroups x)
             (fn_defgroup x) (Z.lor (fn_flags x) (if b then UNODE_AFNEEDSPLUS else 0)) (fn_sysop x) (fn_pri x) (fn_pktfrom x) nm pw)).
  Proof using Type.
    intros Hn Hp E1 E2 Hb. destruct (ne nm) eqn:E.
    - rewrite (WS 36 nm), (WS 72 pw) by (auto; lia). cbn [obind]. eexists. split; [reflexivity|].
      replace (lit "REMOTEAF " ++ q nm ++ lit " " ++ q pw ++ opt b " NEEDSPLUS" ++ [10])
        with (lit "REMOTEAF" ++ 32 :: (q nm ++ 32 :: q pw ++ spaced (wif b "NEEDSPLUS")) ++ [10])
        by (destruct b; cbn [opt wif spaced flat_map]; litc; cbn [app]; repeat (rewrite <- ?app_assoc; cbn [app]); reflexivity).
      assert (Cb : cl (spaced (wif b "NEEDSPLUS"))) by (destruct b; [|apply cl_nil]; apply cl_spaced; constructor; [apply cl_lit; reflexivity|constructor]).
      apply blk_kw; try kwok.
      + repeat (apply cl_sp || (apply cl_app; [eapply cl_field; eauto|])). auto.
      + pose proof (q_length _ _ Hn). pose proof (q_length _ _ Hp). assert (length (spaced (wif b "NEEDSPLUS")) <= 10)%nat by (destruct b; cbn; lia). litc. repeat (rewrite ?app_length; cbn [length]). lia.
      + intros Et. unfold rdline. rewrite Et.
        match goal with |- _ = ROk ?res => change (rof (lastnode (rdRemoteAF ((q nm ++ 32 :: q pw ++ spaced (wif b "NEEDSPLUS")) ++ [10])) (setnodes c (l ++ [x]))) = ROk res) end.
        unfold withnode. erewrite lastnode_app; [reflexivity|]. unfold rdRemoteAF.
        replace ((q nm ++ 32 :: q pw ++ spaced (wif b "NEEDSPLUS")) ++ [10]) with (q nm ++ 32 :: q pw ++ (spaced (wif b "NEEDSPLUS") ++ [10])) by (repeat (rewrite <- ?app_assoc; cbn [app]); reflexivity).
        pose proof (cs_nl _ Cb) as C1. pose proof (proj1 (cl_field _ _ Hp)) as C2.
        rewrite tok_q; [|auto|constructor; [lia|]; apply cstring_app; auto|lia]. rewrite tok_sq by (auto; lia).
        rewrite allwords_spaced; [|lia|destruct b; constructor; [split; [kwok|litc; cbn; lia]|constructor]].
        destruct b; cbn [wif forallb]; [reflexivity|]. rewrite Z.lor_0_r. reflexivity.
    - destruct nm; [|discriminate]. destruct (Hb eq_refl) as [-> ->]. exists []. split; auto. rewrite Z.lor_0_r. destruct x; cbn in *. subst. apply blk_nil.
  Qed.
  Lemma sysop_blk c l x s : field 36 s -> fn_sysop x = [] ->
    exists t, (if ne s then do q <- WriteSafely s; Some (lit "REMOTESYSOP " ++ q ++ [10]) else Some []) = Some t /\
    blk (withnode c l x) t
        (withnode c l (FN (fn_changed x) (fn_node x) (fn_pw x) (fn_packer x) (fn_afpw x) (fn_groups x) (fn_rogroups x) (fn_addgroups x)
             (fn_defgroup x) (fn_flags x) s (fn_pri x) (fn_pktfrom x) (fn_rafname x) (fn_rafpw x))).
  Proof using Type.
    intros Hs Hx. destruct (ne s) eqn:E.
    - rewrite (WS 36 s) by (auto; lia). cbn [obind]. eexists. split; [reflexivity|].
      change (lit "REMOTESYSOP " ++ q s ++ [10]) with (lit "REMOTESYSOP" ++ 32 :: q s ++ [10]). apply blk_kw; try kwok.
      + apply cl_sp. eapply cl_field; eauto.
      + pose proof (q_length _ _ Hs). litc. cbn [length]. lia.
      + intros Et. unfold rdline. rewrite Et.
        match goal with |- _ = ROk ?res => change (rof (lastnode (rdRemoteSysop (q s ++ [10])) (setnodes c (l ++ [x]))) = ROk res) end.
        unfold withnode. erewrite lastnode_app; [reflexivity|]. unfold rdRemoteSysop. rewrite tok_q; [reflexivity|auto|constructor; [lia|constructor]|lia].
    - destruct s; [|discriminate]. exists []. split; auto. destruct x; cbn in *. subst. apply blk_nil.
  Qed.
  Lemma group1 g : letter g -> plainword [g] /\ cl [g] /\ firstflag [g] = Some g.
  Proof using Type.
    unfold letter. intros H. split; [apply plainword_chars; [constructor; [unfold wordchar; lia|constructor]|discriminate]|]. split.
    - split; [constructor; [lia|constructor]|]. split; [cbn; lia|cbn; lia].
    - unfold firstflag. rewrite letters_upper by (constructor; [exact H|constructor]). reflexivity.
  Qed.
  Lemma defgroup_blk c l x g : group g -> fn_defgroup x = 0 ->
    blk (withnode c l x) (if g =? 0 then [] else lit "DEFAULTGROUP " ++ [g] ++ [10])
        (withnode c l (FN (fn_changed x) (fn_node x) (fn_pw x) (fn_packer x) (fn_afpw x) (fn_groups x) (fn_rogroups x) (fn_addgroups x)
             g (fn_flags x) (fn_sysop x) (fn_pri x) (fn_pktfrom x) (fn_rafname x) (fn_rafpw x))).
  Proof using Type.
    intros Hg Hx. destruct (Z.eqb_spec g 0) as [->|Hne].
    - rewrite <- Hx. destruct x; cbn. apply blk_nil.
    - destruct Hg as [|Hg]; [congruence|]. destruct (group1 g Hg) as (P1 & P2 & P3).
      change (lit "DEFAULTGROUP " ++ [g] ++ [10]) with (lit "DEFAULTGROUP" ++ 32 :: [g] ++ [10]). apply blk_kw; try kwok.
      + apply cl_sp. auto.
      + litc. cbn [length]. lia.
      + intros Et. unfold rdline. rewrite Et.
        match goal with |- _ = ROk ?res => change (rof (lastnode (rdDefaultGroup ([g] ++ [10])) (setnodes c (l ++ [x]))) = ROk res) end.
        unfold withnode. erewrite lastnode_app; [reflexivity|]. unfold rdDefaultGroup. rewrite tok_plain; [|auto|constructor|cbn; lia|lia|auto]. rewrite P3. reflexivity.
  Qed.

  Lemma FN_flags a b c d e f g h i x y j k l m o : x = y -> FN a b c d e f g h i x j k l m o = FN a b c d e f g h i y j k l m o.
  Proof using Type. intros ->. reflexivity. Qed.
  Theorem node_block packers n c : goodnode packers n ->
    (forall i s, fn_packer n = Some i -> nth_error packers i = Some s -> nth_error (cf_packers c) i = Some s /\
       forall j t, (j < i)%nat -> nth_error (cf_packers c) j = Some t -> streqi s t = false) ->
    exists t, WriteNode packers n = Some t /\ blk c t (setnodes c (cf_nodes c ++ [doneN n])).
  Proof using Type.
    intros (H1 & H2 & H3 & H4 & H5 & H6 & H7 & H8 & H9 & H10 & H11 & H12 & H13 & H14 & H15) Hpk. unfold WriteNode.
    assert (Hn : exists pk, packername packers (fn_packer n) = Some pk /\ field 10 pk /\ packerof (cf_packers c) pk = Some (fn_packer n)).
    { destruct (fn_packer n) as [i|]; cbn [packername packer_ok] in *.
      - destruct H3 as (s & E & F & Hne & _). destruct (Hpk i s eq_refl E) as [E' Hf]. exists s. split; auto. split; auto. unfold packerof. destruct s as [|z s]; [congruence|].
        rewrite (findpos_first _ _ i (z :: s)); [reflexivity|auto|apply streqi_refl|auto].
      - exists []. split; auto. split; [split; [constructor|split; [auto|cbn; lia]]|reflexivity]. }
    destruct Hn as (pk & -> & Fpk & Epk). cbn [obind]. rewrite (WS 10 pk), (WS 9 (fn_pw n)) by (auto; lia). cbn [obind].
    pose proof (head_blk c n pk (fn_pw n) (fn_flags n) H1 H2 Fpk H11 _ Epk eq_refl) as B1.
    match type of B1 with P_UpdBlk.blk _ _ _ (setnodes c (_ ++ [?x])) => fold (withnode c (cf_nodes c) x) in B1; pose proof (from_blk c (cf_nodes c) x (fn_pktfrom n) (flag (fn_flags n) NODE_PKTFROM) eq_refl) as B2 end.
    specialize (B2 ltac:(intros E; rewrite E in H12; exact H12) ltac:(intros E; rewrite E in H12; exact H12)). cbn [fn_changed fn_node fn_pw fn_packer fn_afpw fn_groups fn_rogroups fn_addgroups fn_defgroup fn_flags fn_sysop fn_pri fn_pktfrom fn_rafname fn_rafpw] in B2.
    match type of B2 with P_UpdBlk.blk _ _ _ (withnode c _ ?x) => destruct (info_blk c (cf_nodes c) x _ _ _ _ H4 H5 H6 H7 eq_refl eq_refl eq_refl eq_refl) as (t3 & E3 & B3) end. rewrite E3. clear E3. cbn [obind]. cbn [fn_changed fn_node fn_pw fn_packer fn_afpw fn_groups fn_rogroups fn_addgroups fn_defgroup fn_flags fn_sysop fn_pri fn_pktfrom fn_rafname fn_rafpw] in B3.
    match type of B3 with P_UpdBlk.blk _ _ _ (withnode c _ ?x) => destruct (raf_blk c (cf_nodes c) x _ _ (flag (fn_flags n) UNODE_AFNEEDSPLUS) H13 H14 eq_refl eq_refl H15) as (t4 & E4 & B4) end. rewrite E4. clear E4. cbn [obind]. cbn [fn_changed fn_node fn_pw fn_packer fn_afpw fn_groups fn_rogroups fn_addgroups fn_defgroup fn_flags fn_sysop fn_pri fn_pktfrom fn_rafname fn_rafpw] in B4.
    match type of B4 with P_UpdBlk.blk _ _ _ (withnode c _ ?x) => destruct (sysop_blk c (cf_nodes c) x _ H10 eq_refl) as (t5 & E5 & B5) end. rewrite E5. clear E5. cbn [obind]. cbn [fn_changed fn_node fn_pw fn_packer fn_afpw fn_groups fn_rogroups fn_addgroups fn_defgroup fn_flags fn_sysop fn_pri fn_pktfrom fn_rafname fn_rafpw] in B5.
    match type of B5 with P_UpdBlk.blk _ _ _ (withnode c _ ?x) => pose proof (defgroup_blk c (cf_nodes c) x _ H8 eq_refl) as B6 end. cbn [fn_changed fn_node fn_pw fn_packer fn_afpw fn_groups fn_rogroups fn_addgroups fn_defgroup fn_flags fn_sysop fn_pri fn_pktfrom fn_rafname fn_rafpw] in B6.
    eexists. split; [reflexivity|]. eapply blk_app; [exact B1|]. eapply blk_app; [exact B2|]. eapply blk_app; [exact B3|]. eapply blk_app; [exact B4|]. eapply blk_app; [exact B5|].
    match type of B6 with P_UpdBlk.blk _ _ _ (withnode c _ ?x) => replace (doneN n) with x; [exact B6|] end.
    unfold doneN. apply FN_flags. apply node_bits. exact H9.
  Qed.
End Node.
