(** C62: a version 7+ nodelist is read as it is stored. *)
From Verif Require Import Base M_Node4D M_Mem M_Out M_V7 S_V7 P_V7.
From Coq Require Import Sorted.

Lemma started w ndx dat dtp rs t : indexfile (laysel w) ndx rs t ->
  exists root s, (rs <= 512)%nat /\ stored (laysel w) ndx rs root t /\
    v7p_nlStart w ndx dat dtp = Some (V7L ndx dat dtp (Z.of_nat rs) root, s).
Proof.
  intros (root & Hr & Hrs & P & Len & S).
  destruct (lay_eqs w) as (_ & _ & _ & _ & _ & E6 & _ & E8). rewrite <- E6 in P. rewrite <- E8 in Len.
  apply part_ne in P as [P1 P2]. rewrite num_len in P2. cbn [Nat.add] in P2.
  set (l := V7L ndx dat dtp (Z.of_nat rs) root).
  assert (Es : v7p_nlStart w ndx dat dtp = Some (l, V7S (repeat 0 512) (Z.of_nat (2 + szcontrol w)))).
  { unfold v7p_nlStart. assert (szcontrol w >= 1)%nat by (destruct w; cbn; lia).
    destruct (Nat.ltb_spec (length ndx) 2); [lia|].
    assert (E1 : lev (firstn 2 ndx) = Z.of_nat rs).
    { unfold part in P1. rewrite num_len in P1. cbn [skipn] in P1. rewrite P1. apply lev2. unfold is_u16. lia. }
    rewrite E1. unfold V7P_NDXBUFSIZE. destruct (Z.ltb_spec 512 (Z.of_nat rs)); [lia|].
    destruct (Nat.ltb_spec (length ndx) (2 + szcontrol w)); [lia|].
    unfold part in P2. rewrite num_len in P2. rewrite P2, signed_long by lia. reflexivity. }
  exists root. eexists. split; [exact Hrs|]. split; [exact S|]. exact Es.
Qed.

(** For every search tree, whatever its depth and the shape of its records: any number of
    requests in any order is answered as the list says, given that its files have the layout
    of the machine. The region and the hub are right as long as the bytes they come from are
    below 128. *)
Theorem C62_answers : forall w ndx dat dtp rs t,
  indexfile (laysel w) ndx rs t -> ordered t -> tamedata t dat dtp ->
  exists l s, v7p_nlStart w ndx dat dtp = Some (l, s) /\
    exists enough, forall fuel, (enough <= fuel)%nat -> forall qs, Forall (fun q => zone (asked q) <> 0) qs ->
      Forall2 (says t dat dtp) qs (v7asks w l fuel qs s).
Proof.
  intros w ndx dat dtp rs t X O T.
  destruct (started w ndx dat dtp rs t X) as (root & s0 & Hrs & S & Es). set (l := V7L ndx dat dtp (Z.of_nat rs) root) in *.
  exists l, s0. split; [exact Es|]. exists (depth t). intros fuel Hf. clear Es.
  intros qs. generalize s0.
  induction qs as [|q qs IH]; intros s HQ; [constructor|].
  inversion HQ as [|? ? Hq HQ']; subst. cbn [v7asks].
  assert (A : exists s' a, v7ask w l fuel q s = (s', a) /\ says t dat dtp q a).
  { assert (Tl : forall z, is_u16 z -> tolong w z = z).
    { intros z Hz. unfold tolong. destruct w; auto. unfold is_u16 in Hz. destruct (Z.ltb_spec z 2147483648); lia. }
    assert (V : forall n v, In (n, v) (entries t) -> 0 <= v).
    { intros n v. eapply stored_nonneg; eauto. }
    destruct q as [n|n|n]; cbn [asked] in Hq; cbn [v7ask v_ndx v_rs v_start l].
    - destruct (findoffset_spec w ndx rs n root t s fuel Hrs Hq Hf S O) as (s' & r & E & [(v & A & ->)|[A ->]]); rewrite E; do 2 eexists; (split; [reflexivity|]).
      + eapply say_yes; eauto.
      + apply say_no; auto.
    - destruct (findoffset_spec w ndx rs (set_point n 0) root t s fuel Hrs Hq Hf S O) as (s' & r & E & [(v & A & ->)|[A ->]]); rewrite E; do 2 eexists; (split; [reflexivity|]).
      + destruct (T _ _ A eq_refl) as (place & hub & region & p & D & T1 & T2 & T3).
        rewrite (gethub_tame l v place hub region p) by eauto. rewrite !tame_word by (try destruct D; auto). rewrite Tl by (destruct D; auto). eapply say_hub; eauto.
      + apply say_nohub; auto.
    - destruct (findoffset_spec w ndx rs (set_point n 0) root t s fuel Hrs Hq Hf S O) as (s' & r & E & [(v & A & ->)|[A ->]]); rewrite E; do 2 eexists; (split; [reflexivity|]).
      + destruct (T _ _ A eq_refl) as (place & hub & region & p & D & T1 & T2 & T3).
        rewrite (gethub_tame l v place hub region p) by eauto. rewrite !tame_word by (try destruct D; auto). rewrite Tl by (destruct D; auto). eapply say_region; eauto.
      + apply say_noregion; auto. }
  destruct A as (s' & a & Ea & Sa). rewrite Ea. constructor; auto.
Qed.
Print Assumptions C62_answers.

(** The packed text comes back whole if the first byte of each word is below 128. *)
Theorem C62_unpack : forall text p, packs text p -> tame p -> v7p_unpack p = text.
Proof. exact unpack_packs. Qed.
Print Assumptions C62_unpack.

(** Finding: the bytes are signed. A node whose region and hub stand within the first 65536
    bytes of the third file is not found there, whatever the list says: the hexadecimal digits
    of the place are unpacked wrongly. *)
Theorem C62_near_refuted : forall w ndx dat dtp rs t n off place hub region p,
  indexfile (laysel w) ndx rs t -> ordered t -> zone n <> 0 ->
  (forall o, In (nopoint n, o) (entries t) -> o = off) -> In (nopoint n, off) (entries t) ->
  describes dat dtp off place hub region p -> place < 65536 ->
  exists l s, v7p_nlStart w ndx dat dtp = Some (l, s) /\ exists enough, forall fuel, (enough <= fuel)%nat ->
    v7asks w l fuel [QHub n; QRegion n] s = [ALong (-1); ALong (-1)].
Proof.
  intros w ndx dat dtp rs t n off place hub region p X O Hz U I D Hp.
  destruct (started w ndx dat dtp rs t X) as (root & s0 & Hrs & S & Es). set (l := V7L ndx dat dtp (Z.of_nat rs) root) in *.
  exists l, s0. split; [exact Es|]. exists (depth t). intros fuel Hf.
  assert (G : v7p_gethubregion l off = HNo) by (eapply gethub_near; [eapply stored_nonneg; eauto|exact D|exact Hp]).
  cbn [v7asks v7ask v_ndx v_rs v_start l]. fold l.
  assert (F : forall s, exists s', v7p_findoffset w ndx (Z.of_nat rs) root (set_point n 0) fuel s = (s', VYes off)).
  { intros s. destruct (findoffset_spec w ndx rs (set_point n 0) root t s fuel Hrs Hz Hf S O) as (s' & r & E & [(v & A & ->)|[A ->]]).
    - apply U in A. subst v. eauto.
    - exfalso. exact (A _ I). }
  destruct (F s0) as (s1 & F1). rewrite F1, G. destruct (F s1) as (s2 & F2). rewrite F2, G. reflexivity.
Qed.
Print Assumptions C62_near_refuted.

(** Finding: also where the place is found, a hub whose number has a low byte above 127, like
    200, comes out as another number. *)
Theorem C62_hub_refuted : forall w ndx dat dtp rs t n off place hub region p,
  indexfile (laysel w) ndx rs t -> ordered t -> zone n <> 0 ->
  (forall o, In (nopoint n, o) (entries t) -> o = off) -> In (nopoint n, off) (entries t) ->
  describes dat dtp off place hub region p -> tame p -> 128 <= hub mod 256 ->
  exists l s, v7p_nlStart w ndx dat dtp = Some (l, s) /\ exists enough, forall fuel, (enough <= fuel)%nat ->
    exists z, v7asks w l fuel [QHub n] s = [ALong z] /\ z <> hub.
Proof.
  intros w ndx dat dtp rs t n off place hub region p X O Hz U I D T Hh.
  destruct (started w ndx dat dtp rs t X) as (root & s0 & Hrs & S & Es). set (l := V7L ndx dat dtp (Z.of_nat rs) root) in *.
  exists l, s0. split; [exact Es|]. exists (depth t). intros fuel Hf.
  assert (G : v7p_gethubregion l off = HYes (sword hub) (sword region)) by (eapply gethub_tame; [eapply stored_nonneg; eauto|exact D|exact T]).
  cbn [v7asks v7ask v_ndx v_rs v_start l]. fold l.
  destruct (findoffset_spec w ndx rs (set_point n 0) root t s0 fuel Hrs Hz Hf S O) as (s' & r & E & [(v & A & ->)|[A ->]]).
  - apply U in A. subst v. rewrite E, G. eexists. split; [reflexivity|].
    assert (Hu : is_u16 hub) by (destruct D; auto). unfold is_u16 in Hu. clear -Hh Hu.
    unfold sword, tolong, schar. assert (B : hub / 256 mod 256 = hub / 256) by (apply Z.mod_small; zlia). rewrite B.
    destruct (Z.ltb_spec (hub mod 256) 128); [lia|].
    intros Q. assert (Q' : u32 (hub mod 256 - 256 + (if hub / 256 <? 128 then hub / 256 else hub / 256 - 256) * 256) mod 4294967296 = hub).
    { destruct w; [rewrite Q; apply Z.mod_small; lia|]. revert Q. unfold u32.
      match goal with |- (if ?a <? _ then _ else _) = _ -> _ => destruct (Z.ltb_spec a 2147483648); intros Q; rewrite ?Zmod_mod in * end; [lia|].
      pose proof (Z.mod_pos_bound (hub mod 256 - 256 + (if hub / 256 <? 128 then hub / 256 else hub / 256 - 256) * 256) 4294967296). lia. }
    unfold u32 in Q'. rewrite Zmod_mod in Q'. destruct (Z.ltb_spec (hub / 256) 128); zlia.
  - exfalso. exact (A _ I).
Qed.
Print Assumptions C62_hub_refuted.

(** ** Cases *)
(** records as a program writes them that has the given layout *)
Definition fill (n : nat) (l : list Z) : list Z := l ++ repeat 0 (n - length l).
Definition mkhead (y : layout) (ty : Z) (cnt : nat) : list Z :=
  fill (y_head y) (num (y_long y) ty ++ num (y_long y) 0 ++ num (y_long y) 0 ++ num 2 (Z.of_nat cnt)).
Definition mkikey (y : layout) (o l : nat) (v lower : Z) : list Z :=
  fill (y_value y) (num 2 (Z.of_nat o) ++ num 2 (Z.of_nat l)) ++ num (y_long y) v ++ num (y_long y) lower.
Definition mklkey (y : layout) (o l : nat) (v : Z) : list Z :=
  fill (y_value y) (num 2 (Z.of_nat o) ++ num 2 (Z.of_nat l)) ++ num (y_long y) v.
Definition key6 (n : node4d) : list Z := num 2 (zone n) ++ num 2 (net n) ++ num 2 (node n).
Definition key8 (n : node4d) : list Z := key6 n ++ num 2 (point n).
Definition mkcontrol (y : layout) (rs : nat) (root : Z) : list Z := fill rs (num 2 (Z.of_nat rs) ++ num (y_long y) root ++ num (y_long y) 1).

Definition na : node4d := N4 2 201 137 0.
Definition nap : node4d := N4 2 201 137 3.
Definition nb : node4d := N4 2 201 200 0.
Definition nc : node4d := N4 2 204 0 0.
Definition twig : tree := Branch (Leaf [(na, 0); (nap, 99)]) (KCons nb (Leaf [(nb, 40); (nc, 80)]) KNil).
Definition twigfile (y : layout) : list Z :=
  mkcontrol y 96 1 ++
  fill 96 (mkhead y 2 1 ++ mkikey y 70 6 0 3 ++ repeat 0 (70 - y_head y - y_ikey y) ++ key6 nb) ++
  fill 96 (mkhead y (-1) 2 ++ mklkey y 70 6 0 ++ mklkey y 80 8 99 ++ repeat 0 (70 - y_head y - y_lkey y - y_lkey y) ++ key6 na ++ repeat 0 4 ++ key8 nap) ++
  fill 96 (mkhead y (-1) 2 ++ mklkey y 70 8 40 ++ mklkey y 80 6 80 ++ repeat 0 (70 - y_head y - y_lkey y - y_lkey y) ++ key8 nb ++ repeat 0 2 ++ key6 nc).

Lemma kb6 n : address n -> point n = 0 -> keybytes n (key6 n).
Proof. destruct n as [z m k p]. cbn. intros A ->. exact (kb_node z m k A). Qed.
Lemma kb8 n : address n -> keybytes n (key8 n).
Proof. destruct n as [z m k p]. intros A. unfold key8, key6. rewrite <- !app_assoc. exact (kb_point z m k p A). Qed.
Ltac addr := unfold address, is_u16; cbn; lia.
Lemma twig_stored w : indexfile (laysel w) (twigfile (laysel w)) 96 twig.
Proof.
  exists 1. split; [lia|]. split; [lia|]. split; [destruct w; reflexivity|]. split; [destruct w; vm_compute; lia|].
  assert (R : forall n, 0 <= n -> (Z.to_nat n < 4)%nat -> record (twigfile (laysel w)) 96 n (firstn 96 (skipn (Z.to_nat n * 96) (twigfile (laysel w))))).
  { intros n H1 H2. split; [exact H1|]. split; [reflexivity|]. rewrite firstn_length, skipn_length.
    assert (length (twigfile (laysel w)) = 384%nat) by (destruct w; reflexivity). lia. }
  assert (HK : forall r o p n, address n -> point n = 0 -> part r o (num 2 (Z.of_nat p) ++ num 2 6) -> part r p (key6 n) -> haskey r o n).
  { intros r o p n A P H1 H2. exists p, (key6 n). split; [apply kb6; auto|]. split; auto. }
  assert (HK8 : forall r o p n, address n -> part r o (num 2 (Z.of_nat p) ++ num 2 8) -> part r p (key8 n) -> haskey r o n).
  { intros r o p n A H1 H2. exists p, (key8 n). split; [apply kb8; auto|]. split; auto. }
  eapply st_branch with (fn := 2); [apply R; lia|destruct w; vm_compute; reflexivity|lia|destruct w; vm_compute; reflexivity|cbn; lia| |].
  - eapply st_leaf; [apply R; lia|destruct w; vm_compute; reflexivity|destruct w; vm_compute; reflexivity|cbn; lia|].
    cbn [leafat]. split; [apply (HK _ _ 70%nat); [addr|reflexivity|destruct w; vm_compute; reflexivity|destruct w; vm_compute; reflexivity]|].
    split; [unfold is_u32; lia|]. split; [destruct w; vm_compute; reflexivity|].
    split; [apply (HK8 _ _ 80%nat); [addr|destruct w; vm_compute; reflexivity|destruct w; vm_compute; reflexivity]|].
    split; [unfold is_u32; lia|]. split; [destruct w; vm_compute; reflexivity|exact I].
  - eapply ks_cons with (kn := 3); [apply (HK _ _ 70%nat); [addr|reflexivity|destruct w; vm_compute; reflexivity|destruct w; vm_compute; reflexivity]|destruct w; vm_compute; reflexivity|lia| |apply ks_nil].
    eapply st_leaf; [apply R; lia|destruct w; vm_compute; reflexivity|destruct w; vm_compute; reflexivity|cbn; lia|].
    cbn [leafat]. split; [apply (HK8 _ _ 70%nat); [addr|destruct w; vm_compute; reflexivity|destruct w; vm_compute; reflexivity]|].
    split; [unfold is_u32; lia|]. split; [destruct w; vm_compute; reflexivity|].
    split; [apply (HK _ _ 80%nat); [addr|reflexivity|destruct w; vm_compute; reflexivity|destruct w; vm_compute; reflexivity]|].
    split; [unfold is_u32; lia|]. split; [destruct w; vm_compute; reflexivity|exact I].
Qed.
Lemma twig_ordered : ordered twig.
Proof.
  cbn [ordered twig kordered]. unfold below, from. cbn [entries].
  repeat match goal with |- _ /\ _ => split end; repeat constructor; unfold before; cbn; lia.
Qed.

(** Finding: the members are longs, which have four bytes in the files and eight on 64 bit
    Linux: a list with the usual layout is not read there, a node it has is not found. *)
Lemma far w f rs n nd fuel s : 0 < rs -> 0 <= n -> Z.of_nat (length f) <= n * rs -> snd (v7p_findoffset w f rs n nd fuel s) = VNo.
Proof.
  intros H0 H1 H2. unfold v7p_findoffset, readrec. destruct (Z.ltb_spec (n * rs) 0); [nia|].
  rewrite skipn_all2 by lia. rewrite firstn_nil. cbn [List.length Z.of_nat]. destruct (Z.eqb_spec 0 rs); [lia|]. reflexivity.
Qed.
Theorem C62_layout_refuted : exists ndx rs t n off, indexfile lay32 ndx rs t /\ ordered t /\ In (n, off) (entries t) /\ zone n <> 0 /\
  forall dat dtp, exists l s, v7p_nlStart true ndx dat dtp = Some (l, s) /\ forall fuel, v7asks true l fuel [QCheck n] s = [ABool false].
Proof.
  exists (twigfile lay32), 96%nat, twig, na, 0. split; [exact (twig_stored false)|]. split; [exact twig_ordered|].
  split; [cbn; auto|]. split; [discriminate|]. intros dat dtp. 
  exists (V7L (twigfile lay32) dat dtp 96 4294967297), (V7S (repeat 0 512) 58). split; [vm_compute; reflexivity|].
  intros fuel. cbn [v7asks v7ask v_ndx v_rs v_start].
  assert (F := far true (twigfile lay32) 96 4294967297 na fuel (V7S (repeat 0 512) 58) ltac:(lia) ltac:(lia) ltac:(vm_compute; discriminate)).
  destruct (v7p_findoffset true (twigfile lay32) 96 4294967297 na fuel (V7S (repeat 0 512) 58)) as [s1 r]. cbn [snd] in F. rewrite F. reflexivity.
Qed.
Print Assumptions C62_layout_refuted.

(** Finding: nothing is checked. An index record that leads to itself keeps the search going for
    ever, and the place of a key may lie outside of the buffer. *)
Theorem C62_corrupt_refuted :
  (exists ndx, forall dat dtp, exists l s, v7p_nlStart true ndx dat dtp = Some (l, s) /\ forall fuel, v7asks true l fuel [QCheck na] s = [ANone]) /\
  (exists ndx, forall dat dtp, exists l s, v7p_nlStart true ndx dat dtp = Some (l, s) /\
     snd (v7p_findoffset true (v_ndx l) (v_rs l) (v_start l) na 5 s) = VUndef).
Proof.
  split.
  - exists (mkcontrol lay64 96 1 ++ fill 96 (mkhead lay64 1 0)). intros dat dtp.
    exists (V7L (mkcontrol lay64 96 1 ++ fill 96 (mkhead lay64 1 0)) dat dtp 96 1), (V7S (repeat 0 512) 58). split; [vm_compute; reflexivity|].
    intros fuel. cbn [v7asks v7ask v_ndx v_rs v_start]. unfold v7p_findoffset.
    assert (L : forall fuel p, exists p', descend true (mkcontrol lay64 96 1 ++ fill 96 (mkhead lay64 1 0)) 96 na fuel
      (V7S (fill 96 (mkhead lay64 1 0) ++ repeat 0 416) p) = (p', VMore)).
    { induction fuel0 as [|fu IH]; intros p; [eexists; reflexivity|]. cbn [descend].
      set (b := fill 96 (mkhead lay64 1 0) ++ repeat 0 416) in *.
      assert (E : rectype true b = 1) by reflexivity. assert (E2 : keycount true b = 0) by reflexivity. cbn [v_buf].
      rewrite E, E2. cbn [Z.eqb Z.ltb Z.compare Z.to_nat indexkeys].
      assert (E3 : readrec (mkcontrol lay64 96 1 ++ fill 96 (mkhead lay64 1 0)) 96 1 (V7S b p) = (V7S b 192, true)) by (vm_compute; reflexivity).
      rewrite E3. apply IH. }
    match goal with |- context [readrec ?f ?r ?n ?s] => assert (E0 : readrec f r n s = (V7S (fill 96 (mkhead lay64 1 0) ++ repeat 0 416) 192, true)) by (vm_compute; reflexivity); rewrite E0 end.
    destruct (L fuel 192) as (p' & ->). reflexivity.
  - exists (mkcontrol lay64 96 1 ++ fill 96 (mkhead lay64 (-1) 1 ++ mklkey lay64 600 6 0)). intros dat dtp. do 2 eexists. split; [vm_compute; reflexivity|]. vm_compute. reflexivity.
Qed.
Print Assumptions C62_corrupt_refuted.

(** A case: four entries in two leaves, one of them a point, and data for the three nodes. *)
Definition datrec (p : list Z) : list Z := fill 40 (repeat 0 15 ++ [1; 0; 1; 0; 0; 6; 0] ++ [45] ++ p).
(** the texts A00010010 and A00000004 *)
Definition pfar : list Z := num 2 (1600 * 2 + 40 * 29 + 29) ++ num 2 (1600 * 29 + 40 * 30 + 29) ++ num 2 (1600 * 29 + 40 * 30 + 29).
Definition pnear : list Z := num 2 (1600 * 2 + 40 * 29 + 29) ++ num 2 (1600 * 29 + 40 * 29 + 29) ++ num 2 (1600 * 29 + 40 * 29 + 33).
Lemma far_packs : packs (lit "A" ++ [] ++ [] ++ lit "00010010" ++ []) pfar.
Proof.
  change (lit "A" ++ [] ++ [] ++ lit "00010010" ++ []) with [65; 48; 48; 48; 49; 48; 48; 49; 48]. unfold pfar.
  rewrite <- (app_nil_r (num 2 (1600 * 29 + 40 * 30 + 29))) at 2.
  apply (pk_cons 65 48 48 2 29 29); [reflexivity..|]. apply (pk_cons 48 49 48 29 30 29); [reflexivity..|].
  apply (pk_cons 48 49 48 29 30 29); [reflexivity..|]. constructor.
Qed.
Lemma near_packs : packs (lit "A" ++ [] ++ [] ++ lit "00000004" ++ []) pnear.
Proof.
  change (lit "A" ++ [] ++ [] ++ lit "00000004" ++ []) with [65; 48; 48; 48; 48; 48; 48; 48; 52]. unfold pnear.
  rewrite <- (app_nil_r (num 2 (1600 * 29 + 40 * 29 + 33))).
  apply (pk_cons 65 48 48 2 29 29); [reflexivity..|]. apply (pk_cons 48 48 48 29 29 29); [reflexivity..|].
  apply (pk_cons 48 48 52 29 29 33); [reflexivity..|]. constructor.
Qed.
Lemma part_at (a b : list Z) n : length a = n -> part (a ++ b) n b.
Proof. intros <-. unfold part. rewrite skipn_app, skipn_all, Nat.sub_diag. cbn [skipn app]. apply firstn_all. Qed.
Lemma mkdescribes dat dtp off place hub region p x : length p = 6%nat ->
  part dat (Z.to_nat off) ((repeat 0 15 ++ [1; 0; 1; 0; 0; 6; 0]) ++ [45] ++ [] ++ p) ->
  packs (lit "A" ++ [] ++ [] ++ x ++ []) p -> hexnumber x place ->
  part dtp (Z.to_nat place) (num 2 region ++ num 2 hub) -> is_u16 region -> is_u16 hub -> describes dat dtp off place hub region p.
Proof.
  intros Hl H1 H2 H3 H4 H5 H6. eapply (ds_intro _ _ _ _ _ _ _ (repeat 0 15 ++ [1; 0; 1; 0; 0; 6; 0]) [45] [] (lit "A") [] [] x []); auto; try (rewrite Hl); try (cbn; lia).
Qed.
Definition dtpfar (hub : Z) : list Z := repeat 0 (Z.to_nat 65552) ++ num 2 20 ++ num 2 hub.
Definition datfar : list Z := datrec pfar ++ datrec pfar ++ datrec pfar.
Lemma far_describes off hub : In off [0; 40; 80] -> is_u16 hub -> describes datfar (dtpfar hub) off 65552 hub 20 pfar.
Proof.
  intros Ho Hh. apply mkdescribes with (x := lit "00010010").
  - reflexivity.
  - destruct Ho as [<-|[<-|[<-|[]]]]; vm_compute; reflexivity.
  - exact far_packs.
  - split; [reflexivity|]. split; [unfold is_u32; lia|reflexivity].
  - unfold dtpfar. apply part_at. apply repeat_length.
  - unfold is_u16; lia.
  - exact Hh.
Qed.
Definition datnear : list Z := datrec pnear.
Lemma near_describes : describes datnear (repeat 0 4 ++ num 2 20 ++ num 2 5) 0 4 5 20 pnear.
Proof.
  apply mkdescribes with (x := lit "00000004"); try (unfold is_u16; lia).
  - reflexivity.
  - vm_compute; reflexivity.
  - exact near_packs.
  - split; [reflexivity|]. split; [unfold is_u32; lia|reflexivity].
  - vm_compute. reflexivity.
Qed.
Example C62_nonvacuous :
  indexfile lay64 (twigfile lay64) 96 twig /\ indexfile lay32 (twigfile lay32) 96 twig /\ ordered twig /\ tamedata twig datfar (dtpfar 5) /\
  (exists l s, v7p_nlStart true (twigfile lay64) [] [] = Some (l, s) /\
     v7asks true l 2 [QCheck nb; QCheck nap; QCheck (N4 2 201 138 0); QCheck nc; QHub (N4 2 205 0 0); QCheck na] s =
     [ABool true; ABool true; ABool false; ABool true; ALong (-1); ABool true]) /\
  describes datfar (dtpfar 200) 80 65552 200 20 pfar /\ tame pfar /\
  describes datnear (repeat 0 4 ++ num 2 20 ++ num 2 5) 0 4 5 20 pnear /\
  (forall o, In (na, o) (entries twig) -> o = 0) /\ (forall o, In (nc, o) (entries twig) -> o = 80).
Proof.
  split; [exact (twig_stored true)|]. split; [exact (twig_stored false)|]. split; [exact twig_ordered|].
  assert (Tp : tame pfar) by (cbn; repeat split; lia || reflexivity).
  split; [|split; [|split; [|split; [|split; [|split]]]]].
  - intros n off H Hp. exists 65552, 5, 20, pfar. split; [|split; [exact Tp|split; split; vm_compute; reflexivity]].
    apply far_describes; [|unfold is_u16; lia]. cbn in H.
    destruct H as [[= <- <-]|[[= <- <-]|[[= <- <-]|[[= <- <-]|[]]]]]; cbn; auto. discriminate.
  - do 2 eexists. split; [vm_compute; reflexivity|]. vm_compute. reflexivity.
  - apply far_describes; [cbn; auto|unfold is_u16; lia].
  - exact Tp.
  - exact near_describes.
  - intros o H. cbn in H. destruct H as [[= <-]|[H|[H|[H|[]]]]]; auto; discriminate.
  - intros o H. cbn in H. destruct H as [H|[H|[H|[[= <-]|[]]]]]; auto; discriminate.
Qed.
