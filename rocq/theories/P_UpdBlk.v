(** What WriteNode and WriteArea write is read back. *)
From Verif Require Import Base M_Node4D M_Str M_Mem M_Cfg M_Fs M_Out M_Upd S_Str S_Node4D P_Str P_Node4D S_Upd P_UpdTok.

(** ** Pieces of lines *)
Definition cl (s : list Z) : Prop := cstring s /\ ~ In 10 s /\ last s 0 <> 13.
Lemma last_app2 (x y : list Z) : last (x ++ y) 0 = match y with [] => last x 0 | _ => last y 0 end.
Proof.
  destruct y as [|c y]; [rewrite app_nil_r; reflexivity|]. destruct (@exists_last _ (c :: y) ltac:(discriminate)) as (a & z & ->).
  rewrite app_assoc, !last_last. destruct (a ++ [z]) eqn:E; [destruct a; discriminate|]. reflexivity.
Qed.
Lemma cl_app x y : cl x -> cl y -> cl (x ++ y).
Proof.
  intros (H1 & H2 & H3) (H4 & H5 & H6). split; [apply cstring_app; auto|]. split; [intros H; apply in_app_or in H; tauto|].
  rewrite last_app2. destruct y; auto.
Qed.
Lemma cl_nil : cl [].
Proof. split; [constructor|]. split; [intros []|cbn; lia]. Qed.
Definition q (s : list Z) : list Z := 34 :: escape s ++ [34].
Lemma cl_field n s : field n s -> cl (q s).
Proof.
  intros (H1 & H2 & _). change (q s) with ((34 :: escape s) ++ [34]). split; [|split].
  - apply cstring_app. split; [constructor; [lia|apply escape_cstring; auto]|repeat constructor; lia].
  - intros H. apply in_app_or in H as [[H|H]|[H|[]]]; try discriminate. clear H1. induction s as [|c s IH]; [destruct H|]. cbn [escape] in H.
    assert (Hs : ~ In 10 s) by (intros Hx; apply H2; right; auto). assert (c <> 10) by (intros ->; apply H2; left; auto).
    destruct ((c =? 34) || (c =? 92)); cbn [In] in H; [destruct H as [H|[H|H]]|destruct H as [H|H]]; try congruence; apply IH; auto.
  - rewrite last_last. lia.
Qed.
Lemma cl_digits s : Forall digit s -> cl s.
Proof.
  intros H. split; [eapply Forall_impl; [|exact H]; unfold digit; cbn beta; intros; lia|]. split.
  - intros Hi. rewrite Forall_forall in H. specialize (H _ Hi). unfold digit in H. lia.
  - destruct s as [|c s]; [cbn; lia|].
    destruct (@exists_last _ (c :: s) ltac:(discriminate)) as (a & z & Ez). rewrite Ez in *. rewrite last_last. apply Forall_app in H as [_ H]. inversion H; subst. unfold digit in *. lia.
Qed.
Lemma cl_dec z : 0 <= z -> cl (dec z).
Proof. intros. apply cl_digits, dec_digits; auto. Qed.
Lemma cl_lit s : forallb (fun c => (1 <=? c) && (c <=? 255) && negb (c =? 10) && negb (c =? 13)) (lit s) = true -> cl (lit s).
Proof.
  intros H. rewrite forallb_forall in H. assert (H0 : forall c, In c (lit s) -> 1 <= c <= 255 /\ c <> 10 /\ c <> 13) by (intros c Hc; specialize (H c Hc); lia).
  split; [apply Forall_forall; intros c Hc; destruct (H0 c Hc); lia|]. split; [intros Hc; destruct (H0 _ Hc); lia|].
  destruct (lit s) as [|c r] eqn:E; [cbn; lia|]. destruct (@exists_last _ (c :: r) ltac:(discriminate)) as (a & z & Ez). rewrite Ez in *. rewrite last_last.
  intros ->. destruct (H0 13) as (_ & _ & Hx); [apply in_or_app; right; left; auto|]. congruence.
Qed.
Lemma u16_nonneg x : is_u16 x -> 0 <= x.
Proof. unfold is_u16. lia. Qed.
Lemma cl_addr n : valid4d n -> cl (WriteNode4D n).
Proof.
  intros (H1 & H2 & H3 & H4). unfold WriteNode4D. repeat apply cl_app; try (apply cl_dec, u16_nonneg; auto); apply cl_lit; reflexivity.
Qed.
Lemma addr_length n : valid4d n -> (length (WriteNode4D n) <= 23)%nat.
Proof.
  intros (H1 & H2 & H3 & H4). unfold WriteNode4D. rewrite !app_length.
  pose proof (dec_length_u16 _ H1). pose proof (dec_length_u16 _ H2). pose proof (dec_length_u16 _ H3). pose proof (dec_length_u16 _ H4). litc. cbn [length]. lia.
Qed.
Definition wordchar (c : Z) : Prop := 1 <= c <= 255 /\ c <> 32 /\ c <> 9 /\ c <> 10 /\ c <> 92 /\ c <> 34.
Lemma plainword_chars w : Forall wordchar w -> w <> [] -> plainword w.
Proof.
  intros H Hne. split; [eapply Forall_impl; [|exact H]; unfold wordchar; cbn beta; intros; lia|]. split; auto.
  eapply Forall_impl; [|exact H]; unfold wordchar; cbn beta; intros; tauto.
Qed.
Lemma digit_wordchar s : Forall digit s -> Forall wordchar s.
Proof. apply Forall_impl. unfold digit, wordchar. intros. lia. Qed.
Lemma addr_wordchars n : valid4d n -> Forall wordchar (WriteNode4D n).
Proof.
  intros (H1 & H2 & H3 & H4). unfold WriteNode4D. repeat (apply Forall_app; split); try (apply digit_wordchar, dec_digits, u16_nonneg; auto);
  litc; repeat (apply Forall_cons; [unfold wordchar; lia|]); constructor.
Qed.
Lemma dec_ne z : 0 <= z -> dec z <> [].
Proof. intros. pose proof (dec_nonempty z). tauto. Qed.
Lemma addr_plain n : valid4d n -> plainword (WriteNode4D n).
Proof.
  intros H. apply plainword_chars; [apply addr_wordchars; auto|]. unfold WriteNode4D. destruct H as (H1 & _). pose proof (dec_ne _ (u16_nonneg _ H1)).
  destruct (dec (zone n)); [congruence|discriminate].
Qed.
Lemma lit_plain s : forallb (fun c => (1 <=? c) && (c <=? 255) && negb (c =? 32) && negb (c =? 9) && negb (c =? 10) && negb (c =? 92) && negb (c =? 34)) (lit s) = true ->
  lit s <> [] -> plainword (lit s).
Proof.
  intros H Hne. apply plainword_chars; auto. apply Forall_forall. intros c Hc. rewrite forallb_forall in H. specialize (H c Hc). unfold wordchar. lia.
Qed.
Lemma WS n s : field n s -> (n <= 80)%nat -> WriteSafely s = Some (q s).
Proof.
  intros (H1 & H2 & H3) Hn. apply WriteSafely_ok; auto. unfold quoted_length.
  assert (length (filter needs_escape s) <= length s)%nat; [|lia]. clear. induction s as [|c s IH]; cbn [filter length]; [lia|]. destruct (needs_escape c); cbn [length]; lia.
Qed.
Lemma q_length n s : field n s -> (length (q s) <= 2 * n)%nat.
Proof.
  intros (H1 & H2 & H3). unfold q. cbn [length]. rewrite app_length, escape_length. unfold quoted_length. cbn [length].
  assert (length (filter needs_escape s) <= length s)%nat; [|lia]. clear. induction s as [|c s IH]; cbn [filter length]; [lia|]. destruct (needs_escape c); cbn [length]; lia.
Qed.
Lemma q_app s r : q s ++ r = 34 :: escape s ++ 34 :: r.
Proof. unfold q. cbn [app]. rewrite <- app_assoc. reflexivity. Qed.
Lemma tok_q n s r : field n s -> cstring r -> (2 <= n)%nat -> tok n (q s ++ r) = (s, true, r).
Proof. intros. rewrite q_app. apply tok_quoted; auto. Qed.
Lemma tok_sq n s r : field n s -> cstring r -> (2 <= n)%nat -> tok n (32 :: q s ++ r) = (s, true, r).
Proof. intros. rewrite tok_skip by auto. apply tok_q; auto. Qed.

(** ** Blocks of lines *)
Definition wline (l : list Z) : Prop := exists b, l = b ++ [10] /\ cl b /\ (length b <= 3997)%nat.
Lemma rdlines_app okother ls1 : forall ls2 c, rdlines okother (ls1 ++ ls2) c = match rdlines okother ls1 c with ROk c' => rdlines okother ls2 c' | e => e end.
Proof. induction ls1 as [|l r IH]; intros ls2 c; cbn [rdlines app]; [reflexivity|]. destruct (rdline okother c l); auto. Qed.

Section Blocks.
  Variable okother : list (list Z) -> list node4d -> list (list Z) -> list node4d -> list Z -> bool.

  Definition blk (c : fconf) (t : list Z) (c' : fconf) : Prop :=
    exists ls, t = concat ls /\ Forall wline ls /\ Forall (fun l => foreign l = false) ls /\ rdlines okother ls c = ROk c'.
  Lemma blk_nil c : blk c [] c.
  Proof. exists []. repeat split; constructor. Qed.
  Lemma blk_app c t1 c1 t2 c2 : blk c t1 c1 -> blk c1 t2 c2 -> blk c (t1 ++ t2) c2.
  Proof.
    intros (l1 & -> & H1 & H2 & H3) (l2 & -> & H4 & H5 & H6). exists (l1 ++ l2). rewrite concat_app. repeat split; try (apply Forall_app; auto).
    rewrite rdlines_app, H3. exact H6.
  Qed.
  Lemma blk_line c b c' : cl b -> (length b <= 3997)%nat -> foreign (b ++ [10]) = false -> rdline okother c (b ++ [10]) = ROk c' -> blk c (b ++ [10]) c'.
  Proof.
    intros H1 H2 H3 H4. exists [b ++ [10]]. cbn [concat]. rewrite app_nil_r. split; auto. split; [constructor; [exists b; auto|constructor]|].
    split; [constructor; auto|]. cbn [rdlines]. rewrite H4. reflexivity.
  Qed.
  Lemma blk_empty c : blk c [10] c.
  Proof.
    apply (blk_line c [] c); [apply cl_nil|cbn; lia| |].
    - unfold foreign, blank. cbn [app]. rewrite tok_end by lia. reflexivity.
    - unfold rdline. cbn [app]. rewrite tok_end by lia. reflexivity.
  Qed.
  Lemma foreign_kw b k src : tok 30 b = (lit k, true, src) ->
    existsb (streqi (lit k)) (areakeywords ++ nodekeywords ++ [lit "LOCALAREA"]) = true -> foreign b = false.
  Proof.
    intros E H. assert (Hx : aboutarea b || aboutnode b = true).
    { unfold aboutarea, aboutnode, areaheading, nodeheading, keyword. rewrite E. cbn [fst].
      cbn [areakeywords nodekeywords app map existsb] in *. unfold kw. rewrite !orb_true_iff in H. rewrite !orb_true_iff. tauto. }
    unfold foreign. apply orb_true_iff in Hx as [-> | ->]; rewrite ?andb_false_r; cbn; rewrite ?andb_false_r; reflexivity.
  Qed.

  (** a line with a keyword and what follows *)
  Lemma blk_kw c k r c' : plainword (lit k) -> (length (lit k) < 30)%nat ->
    existsb (streqi (lit k)) (areakeywords ++ nodekeywords ++ [lit "LOCALAREA"]) = true ->
    cl (lit k) -> cl (32 :: r) -> (length (lit k) + length r <= 3996)%nat ->
    (tok 30 (lit k ++ 32 :: r ++ [10]) = (lit k, true, r ++ [10]) -> rdline okother c (lit k ++ 32 :: r ++ [10]) = ROk c') ->
    blk c (lit k ++ 32 :: r ++ [10]) c'.
  Proof.
    intros Hp Hl Hk Hc Hr Hlen Hrd. assert (Et : tok 30 (lit k ++ 32 :: r ++ [10]) = (lit k, true, r ++ [10])).
    { rewrite tok_plain; [reflexivity|auto| |auto|lia|auto]. apply cstring_app; split; [destruct Hr as (Hr & _); inversion Hr; auto|constructor; [lia|constructor]]. }
    replace (lit k ++ 32 :: r ++ [10]) with ((lit k ++ 32 :: r) ++ [10]) in * by (rewrite <- app_assoc; reflexivity).
    apply blk_line; auto; [apply cl_app; auto|rewrite app_length; cbn [length]; lia|]. eapply foreign_kw; eauto.
  Qed.
  (** a keyword alone *)
  Lemma blk_kw0 c k c' : plainword (lit k) -> (length (lit k) < 30)%nat ->
    existsb (streqi (lit k)) (areakeywords ++ nodekeywords ++ [lit "LOCALAREA"]) = true -> cl (lit k) ->
    (tok 30 (lit k ++ [10]) = (lit k, true, [10]) -> rdline okother c (lit k ++ [10]) = ROk c') ->
    blk c (lit k ++ [10]) c'.
  Proof.
    intros Hp Hl Hk Hc Hrd. assert (Et : tok 30 (lit k ++ [10]) = (lit k, true, [10])).
    { rewrite tok_plain; [reflexivity|auto|constructor|auto|lia|auto]. }
    apply blk_line; auto; [lia|]. eapply foreign_kw; eauto.
  Qed.
End Blocks.
Lemma cl_sp r : cl r -> cl (32 :: r).
Proof. intros H. apply (cl_app [32] r); auto. split; [repeat constructor; lia|]. split; [cbn; lia|cbn; lia]. Qed.
