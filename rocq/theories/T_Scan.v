(** C61: which areas a scan exports. *)
From Coq Require Import Sorted.
From Verif Require Import Base M_Str M_Fs M_Mem M_Out M_Cfg P_Out P_Areafix M_Scan S_Scan P_Scan.

Lemma sorted_eq (a b : list nat) : StronglySorted lt a -> StronglySorted lt b -> (forall n, In n a <-> In n b) -> a = b.
Proof.
  revert b. induction a as [|x a IH]; intros [|y b] Ha Hb H; auto.
  - exfalso. apply (H y). left; reflexivity.
  - exfalso. apply (H x). left; reflexivity.
  - inversion Ha as [|? ? Ha' Fa]; subst. inversion Hb as [|? ? Hb' Fb]; subst. rewrite Forall_forall in Fa, Fb.
    assert (x = y) as ->.
    { destruct (proj1 (H x) (or_introl eq_refl)) as [E|E]; auto. destruct (proj2 (H y) (or_introl eq_refl)) as [E'|E']; auto. specialize (Fa _ E'). specialize (Fb _ E). lia. }
    f_equal. apply IH; auto. intros n. split; intros Hi.
    + destruct (proj1 (H n) (or_intror Hi)) as [E|E]; auto. subst. specialize (Fa _ Hi). lia.
    + destruct (proj2 (H n) (or_intror Hi)) as [E|E]; auto. subst. specialize (Fb _ Hi). lia.
Qed.
Lemma seq_sorted n : forall s, StronglySorted lt (seq s n).
Proof. induction n; intros s; cbn; constructor; auto. apply Forall_forall. intros x Hx. apply in_seq in Hx. lia. Qed.
Lemma filter_sorted P l : StronglySorted lt l -> StronglySorted lt (filter P l).
Proof.
  induction 1 as [|x l H IH F]; cbn; [constructor|]. destruct (P x); auto. constructor; auto. rewrite Forall_forall in *. intros y Hy. apply filter_In in Hy. apply F. tauto.
Qed.

(** SCAN exports exactly the areas that can be exported, each once, in the order of the
    configuration. *)
Theorem C61_scan : forall flags ok ctrlc areas before W,
  all_scannable flags areas W ->
  performs ok ctrlc before W (fst (Scan flags ok ctrlc areas before)) (snd (Scan flags ok ctrlc areas before)).
Proof.
  intros flags ok ctrlc areas before W [Hs Hi]. unfold Scan. rewrite scanall_walk. apply walk_performs.
  pose proof (somes_all flags areas areas [] eq_refl) as SA0. cbn [length] in SA0. rewrite SA0. clear SA0. apply sorted_eq; auto.
  - apply filter_sorted, seq_sorted.
  - intros n. rewrite Hi, filter_In, in_seq, isscan_iff. cbn [length]. intuition lia.
Qed.

Lemma only_filter flags areas ks W : only_scannable flags areas ks W -> W = filter (fun n => isscan flags (nth n areas noarea)) ks.
Proof.
  induction 1 as [|k ks W H _ IH|k ks W H _ IH]; cbn; auto.
  - apply isscan_iff in H. rewrite H. f_equal. exact IH.
  - destruct (isscan flags (nth k areas noarea)) eqn:E; auto. apply isscan_iff in E. contradiction.
Qed.
Lemma filter_true (l : list nat) : filter (fun k => negb (existsb (Nat.eqb k) [])) l = l.
Proof. induction l as [|x l IH]; [reflexivity|]. cbn [filter existsb negb]. f_equal. exact IH. Qed.
Lemma cstring_no0 l : cstring l -> ~ In 0 l.
Proof. intros H Hi. unfold cstring in H. rewrite Forall_forall in H. apply H in Hi. lia. Qed.
Lemma lines_short ls : (length ls <= length (nfile ls))%nat.
Proof. unfold nfile. induction ls as [|l ls IH]; cbn [map concat length]; [lia|]. rewrite !app_length. cbn [length]. lia. Qed.

Section File.
  Variables (flags : Z) (ok : list nat -> nat -> bool) (ctrlc : nat -> bool) (areas : list sarea) (before : bool) (key : sarea -> list Z) (cut : bool).
  Lemma file_performs ls ks W :
    Forall (fun l => rawok (nl_name l ++ nl_rest l)) ls ->
    (forall l, In l ls -> look areas key cut (nl_name l ++ nl_rest l) = match nl_name l with [] => None | _ => findarea key (nl_name l) areas 0 end) ->
    names key areas (map nl_name ls) ks -> only_scannable flags areas (firsts ks) W ->
    exists ev ret, option_map (around before) (scanlines flags ok ctrlc areas key cut (S (length (nfile ls))) (nfile ls) 0 [] []) = Some (ev, ret) /\ performs ok ctrlc before W ev ret.
  Proof.
    intros F L N O. pose proof (lines_short ls) as Hl.
    assert (E : nfile ls = concat (map (fun l => l ++ [10]) (map (fun l => nl_name l ++ nl_rest l) ls))).
    { unfold nfile. rewrite map_map. f_equal. apply map_ext. intros l. rewrite <- app_assoc. reflexivity. }
    set (fuel := S (length (nfile ls))) in *. assert (Hfu : (length ls < fuel)%nat) by (unfold fuel; lia). clearbody fuel. rewrite E. rewrite scanlines_walk.
    - cbn [option_map]. rewrite map_map.
      pose proof (walk_performs ok ctrlc before (lineitems flags areas (map (fun l => look areas key cut (nl_name l ++ nl_rest l)) ls) []) W) as P.
      rewrite somes_lines, filter_true in P. rewrite (names_look key areas (fun l => look areas key cut (nl_name l ++ nl_rest l)) ls L ks N) in P.
      specialize (P (only_filter _ _ _ _ O)). destruct (around before _) as [ev ret]. exists ev, ret. split; [reflexivity|exact P].
    - apply Forall_map. exact F.
    - rewrite map_length. exact Hfu.
  Qed.
End File.

(** SCANLIST exports exactly the areas named in the file that can be exported, each once, in
    the order in which they are first named; other lines change nothing. *)
Theorem C61_list : forall flags ok ctrlc areas before ls ks W,
  Forall nline_ok ls -> names sa_tag areas (map nl_name ls) ks -> only_scannable flags areas (firsts ks) W ->
  exists ev ret, ScanList flags ok ctrlc areas before (nfile ls) = Some (ev, ret) /\ performs ok ctrlc before W ev ret.
Proof.
  intros flags ok ctrlc areas before ls ks W F N O. unfold ScanList. apply (file_performs _ _ _ _ _ _ _ _ ks); auto.
  - eapply Forall_impl; [|exact F]. intros l (A & B & C & D & E). unfold blanks in C. split; [|split].
    + intros Hi. apply in_app_or in Hi as [Hi|Hi]; auto. rewrite Forall_forall in C. apply C in Hi. lia.
    + intros Hi. apply in_app_or in Hi as [Hi|Hi]; [apply (cstring_no0 _ A Hi)|]. rewrite Forall_forall in C. apply C in Hi. lia.
    + rewrite app_length. lia.
  - intros l Hl. rewrite Forall_forall in F. destruct (F l Hl) as (A & B & C & D & E). unfold look.
    rewrite strip_crlf; [destruct (nl_name l); reflexivity| |exact D]. eapply Forall_impl; [|exact C]. cbn. tauto.
Qed.

(** SCANDOTJAM: the same for a file with paths; what follows a space does not count. *)
Theorem C61_dotjam : forall flags ok ctrlc areas before ls ks W,
  Forall jline_ok ls -> names sa_path areas (map nl_name ls) ks -> only_scannable flags areas (firsts ks) W ->
  exists ev ret, ScanDotJam flags ok ctrlc areas before (nfile ls) = Some (ev, ret) /\ performs ok ctrlc before W ev ret.
Proof.
  intros flags ok ctrlc areas before ls ks W F N O. unfold ScanDotJam. apply (file_performs _ _ _ _ _ _ _ _ ks); auto.
  - eapply Forall_impl; [|exact F]. intros l (A & B & B2 & B3 & C & D & E).
    assert (R : ~ In 10 (nl_rest l) /\ ~ In 0 (nl_rest l)).
    { destruct D as [D|(t & -> & D1 & D2)].
      - unfold blanks in D. rewrite Forall_forall in D. split; intros Hi; apply D in Hi; lia.
      - split; intros [Hi|Hi]; try discriminate; auto. apply (cstring_no0 _ D1 Hi). }
    split; [|split].
    + intros Hi. apply in_app_or in Hi as [Hi|Hi]; tauto.
    + intros Hi. apply in_app_or in Hi as [Hi|Hi]; [apply (cstring_no0 _ A Hi)|tauto].
    + rewrite app_length. lia.
  - intros l Hl. rewrite Forall_forall in F. destruct (F l Hl) as (A & B & B2 & B3 & C & D & E). unfold look.
    assert (X : exists r, striptrail (crlf ((nl_name l ++ nl_rest l) ++ [10])) = nl_name l ++ r /\ (r = [] \/ exists u, r = 32 :: u)).
    { destruct D as [D|(t & -> & D1 & D2)].
      - exists []. rewrite app_nil_r. split; [|auto]. apply strip_crlf; [|auto]. eapply Forall_impl; [|exact D]. cbn. tauto.
      - assert (S1 : forall v, exists r, striptrail (nl_name l ++ 32 :: v) = nl_name l ++ r /\ (r = [] \/ exists u, r = 32 :: u)).
        { intros v. exists (striptrail (32 :: v)). split.
          - destruct (exists_last B3) as (n' & c & En). rewrite En, last_last in C. rewrite En, <- !app_assoc. cbn [app]. rewrite striptrail_app by lia. reflexivity.
          - cbn [striptrail]. destruct (striptrail v); [left; reflexivity|right; eexists; reflexivity]. }
        destruct (crlf_cases (nl_name l ++ 32 :: t)) as [Q|(u & Q1 & Q2)].
        + rewrite Q, <- app_assoc. cbn [app]. apply S1.
        + rewrite Q2. destruct t as [|c t].
          * apply app_inj_tail in Q1. destruct Q1; discriminate.
          * destruct (exists_last (l := c :: t)) as (t' & c' & Et); [discriminate|]. rewrite Et in Q1.
            replace (nl_name l ++ 32 :: t' ++ [c']) with ((nl_name l ++ 32 :: t') ++ [c']) in Q1 by (rewrite <- app_assoc; reflexivity).
            apply app_inj_tail in Q1. destruct Q1 as [<- _]. rewrite <- app_assoc. cbn [app]. apply S1. }
    destruct X as (r & -> & Hr). destruct (nl_name l ++ r) as [|c0 r0] eqn:Ex; [destruct (nl_name l); [congruence|discriminate]|]. rewrite <- Ex.
    rewrite upto_app by auto. replace (uptoblank r) with (@nil Z); [|destruct Hr as [->|(u & ->)]; reflexivity]. rewrite app_nil_r. destruct (nl_name l); [congruence|reflexivity].
Qed.

(** SCANAREA exports the named area (also a netmail area that SCAN leaves alone), and does
    nothing if there is no such area or it cannot be exported. *)
Theorem C61_area : forall flags ok ctrlc areas before tag,
  let r := ScanArea ok areas before tag in
  (exists k, named sa_tag areas tag k /\ scannable (Z.land flags (Z.lnot CFG_NOEXPORTNETMAIL)) (nth k areas noarea) /\ performs ok ctrlc before [k] (fst r) (snd r)) \/
  (~ (exists k, named sa_tag areas tag k /\ scannable (Z.land flags (Z.lnot CFG_NOEXPORTNETMAIL)) (nth k areas noarea)) /\ r = ([], false)).
Proof.
  intros flags ok ctrlc areas before tag. cbv zeta. unfold ScanArea. pose proof (findarea_named sa_tag areas tag) as N.
  assert (Fl : flag (Z.land flags (Z.lnot CFG_NOEXPORTNETMAIL)) CFG_NOEXPORTNETMAIL = false).
  { unfold flag. rewrite <- Z.land_assoc. replace (Z.land (Z.lnot CFG_NOEXPORTNETMAIL) CFG_NOEXPORTNETMAIL) with 0 by reflexivity. rewrite Z.land_0_r. reflexivity. }
  destruct (findarea sa_tag tag areas 0) as [k|]; [|right; split; [intros (k & H & _); eapply N; eauto|reflexivity]].
  assert (U : forall k', named sa_tag areas tag k' -> k' = k) by (intros k' H; symmetry; eapply named_fun; eauto).
  set (a := nth k areas noarea) in *.
  assert (No : ~ scannable (Z.land flags (Z.lnot CFG_NOEXPORTNETMAIL)) a -> ~ (exists k, named sa_tag areas tag k /\ scannable (Z.land flags (Z.lnot CFG_NOEXPORTNETMAIL)) (nth k areas noarea))).
  { intros H (k' & H1 & H2). rewrite (U _ H1) in H2. auto. }
  destruct (Z.eqb_spec (sa_type a) AREATYPE_ECHOMAIL) as [E|E]; cbn [negb andb].
  - destruct (sa_mb a) as [[|]|] eqn:Em; try (right; split; [apply No; intros [H _]; congruence|reflexivity]). left. exists k. split; [exact N|]. split; [split; auto|].
    unfold around, performs. destruct before; [|split; reflexivity]. cbn [fst snd]. exists 1%nat. cbn [length firstn map app].
    destruct (ok [] k) eqn:Eo; (split; [lia|]); (split; [reflexivity|]); (split; [intros; lia|]).
    + split; [reflexivity|]. intros j Hj. assert (j = 0)%nat as -> by lia. exact Eo.
    + left. exists 0%nat. split; [reflexivity|exact Eo].
  - destruct (Z.eqb_spec (sa_type a) AREATYPE_NETMAIL) as [E'|E']; cbn [negb andb]; [|right; split; [apply No; intros [_ [H|[H _]]]; congruence|reflexivity]].
    destruct (sa_mb a) as [[|]|] eqn:Em; try (right; split; [apply No; intros [H _]; congruence|reflexivity]). left. exists k. split; [exact N|]. split; [split; auto|].
    unfold around, performs. destruct before; [|split; reflexivity]. cbn [fst snd]. exists 1%nat. cbn [length firstn map app].
    destruct (ok [] k) eqn:Eo; (split; [lia|]); (split; [reflexivity|]); (split; [intros; lia|]).
    + split; [reflexivity|]. intros j Hj. assert (j = 0)%nat as -> by lia. exact Eo.
    + left. exists 0%nat. split; [reflexivity|exact Eo].
Qed.

(** Finding: a line of more than 99 characters is taken for several lines; the rest of it can
    name an area. *)
Definition always : list nat -> nat -> bool := fun _ _ => true.
Definition never : nat -> bool := fun _ => false.
Theorem C61_long_refuted : exists areas line,
  ~ In 10 line /\ ~ streqi (sa_tag (nth 0 areas noarea)) line = true /\
  ScanList 0 always never areas true (line ++ [10]) = Some ([SBegin true; SExport 0; SEnd true], true).
Proof.
  exists [SA (lit "SECRET") [] AREATYPE_ECHOMAIL (Some true)], (repeat 59 99 ++ lit "secret").
  split; [intros H; apply in_app_or in H as [H|H]; [apply repeat_spec in H; discriminate|]; cbn in H; intuition discriminate|]. split; [discriminate|reflexivity].
Qed.
(** Finding: an area whose name ends with a letter outside ASCII is scanned by SCAN and never
    found by SCANLIST. *)
Theorem C61_accent_refuted : exists areas,
  Scan 0 always never areas true = ([SBegin true; SExport 0; SEnd true], true) /\
  ScanList 0 always never areas true (sa_tag (nth 0 areas noarea) ++ [10]) = Some ([SBegin true; SEnd true], true).
Proof. exists [SA [67; 65; 70; 201] [] AREATYPE_ECHOMAIL (Some true)]. split; reflexivity. Qed.

(** Five areas; the file names the third, the second (in another case), an unknown one, the
    third again and a pass-through area. *)
Definition five : list sarea :=
  [SA (lit "NET") (lit "/n") AREATYPE_NETMAIL (Some true); SA (lit "ONE") (lit "/one") AREATYPE_ECHOMAIL (Some true); SA (lit "TWO") (lit "/two") AREATYPE_ECHOMAIL (Some true);
   SA (lit "PASS") [] AREATYPE_ECHOMAIL None; SA (lit "BAD") (lit "/bad") AREATYPE_BAD (Some true)].
Definition fivelines : list nline := [NLI (lit "TWO") [13]; NLI [] [32]; NLI (lit "one") []; NLI (lit "three") []; NLI (lit "two") []; NLI (lit "PASS") []].
Ltac isnamed := split; [cbn; lia|split; [reflexivity|intros [|[|[|[|j]]]] Hj; first [reflexivity|lia]]].
Ltac unnamed := let k := fresh in let H := fresh in intros k (H & ? & ?); cbn in H; destruct k as [|[|[|[|[|k]]]]]; [discriminate..|lia].
Example C61_nonvacuous :
  all_scannable CFG_NOEXPORTNETMAIL five [1; 2]%nat /\ Forall nline_ok fivelines /\
  names sa_tag five (map nl_name fivelines) [2; 1; 2; 3]%nat /\ only_scannable 0 five (firsts [2; 1; 2; 3]%nat) [2; 1]%nat /\
  ScanList 0 always never five true (nfile fivelines) = Some ([SBegin true; SExport 2; SExport 1; SEnd true], true) /\
  Forall jline_ok [NLI (lit "/TWO") (lit " 3 new")] /\ names sa_path five [lit "/TWO"] [2]%nat /\
  ScanArea always five true (lit "net") = ([SBegin true; SExport 0; SEnd true], true).
Proof.
  assert (S1 : scannable CFG_NOEXPORTNETMAIL (nth 1 five noarea)) by (split; [reflexivity|left; reflexivity]).
  assert (S2 : scannable CFG_NOEXPORTNETMAIL (nth 2 five noarea)) by (split; [reflexivity|left; reflexivity]).
  split; [|split; [|split; [|split; [|split; [|split; [|split]]]]]].
  - split; [repeat constructor|]. intros n. split.
    + intros [<-|[<-|[]]]; (split; [cbn; lia|assumption]).
    + intros [H1 [H2 H3]]. cbn [length five] in H1. destruct n as [|[|[|[|[|n]]]]]; cbn in *; try lia; auto; [|discriminate|]; destruct H3 as [H|[H H']]; discriminate.
  - repeat (apply Forall_cons; [split; [unfold cstring; cbn; repeat (apply Forall_cons; [lia|]); constructor|split; [cbn; intuition discriminate|split; [unfold blanks; cbn [nl_rest]; repeat (apply Forall_cons; [lia|]); constructor|split; [cbn; first [left; reflexivity|right; lia]|cbn; lia]]]]|]). constructor.
  - cbn [map fivelines nl_name].
    apply names_area; [discriminate|isnamed|]. apply names_empty. apply names_area; [discriminate|isnamed|]. apply names_unknown; [discriminate|unnamed|].
    apply names_area; [discriminate|isnamed|]. apply names_area; [discriminate|isnamed|]. apply names_nil.
  - cbn. apply only_yes; [split; [reflexivity|left; reflexivity]|]. apply only_yes; [split; [reflexivity|left; reflexivity]|]. apply only_no; [intros [H _]; discriminate|]. apply only_nil.
  - reflexivity.
  - apply Forall_cons; [|constructor]. split; [cbn; repeat (apply Forall_cons; [lia|]); constructor|]. split; [cbn; intuition discriminate|]. split; [cbn; intuition discriminate|]. split; [discriminate|]. split; [cbn; lia|].
    split; [right; exists (lit "3 new"); split; [reflexivity|]; split; [cbn; repeat (apply Forall_cons; [lia|]); constructor|cbn; intuition discriminate]|cbn; lia].
  - apply names_area; [discriminate|isnamed|]. apply names_nil.
  - reflexivity.
Qed.

Print Assumptions C61_scan.
Print Assumptions C61_list.
Print Assumptions C61_dotjam.
Print Assumptions C61_area.
Print Assumptions C61_long_refuted.
Print Assumptions C61_accent_refuted.
