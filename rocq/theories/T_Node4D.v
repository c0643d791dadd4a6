(** Properties C01 and C02: FidoNet addresses. *)
From Verif Require Import Base M_Node4D S_Node4D P_Node4D.

(** C01: printing and parsing an address. *)
Theorem C01_print_parse : forall n, valid4d n -> Parse4D (Print4D n) = Some n.
Proof. exact print_parse. Qed.
Print Assumptions C01_print_parse.

(** The four component form used in the configuration file, read with any template. *)
Theorem C01_write_parse : forall n tpl, valid4d n -> Parse4DTemplate (WriteNode4D n) tpl = Some n.
Proof. exact write_parse. Qed.
Print Assumptions C01_write_parse.

(** Exactly which texts are accepted, and what they denote. *)
Theorem C01_parse_exact : forall buf tpl n,
  Parse4DTemplate buf tpl = Some n <->
  exists t, addrtext_ok t /\ buf = render t /\ n = denote t tpl.
Proof. exact parse_iff. Qed.
Print Assumptions C01_parse_exact.

Theorem C01_parse_in_range : forall buf tpl n,
  valid4d tpl -> Parse4DTemplate buf tpl = Some n -> valid4d n.
Proof. exact parse_valid. Qed.
Print Assumptions C01_parse_in_range.

(** Finding: components above 65535 are not rejected but silently reduced mod 65536. *)
Theorem C01_out_of_range_accepted_refuted :
  exists buf n, Parse4D buf = Some n /\ buf = lit "2:65737/1" /\ n = N4 2 201 1 0.
Proof. exists (lit "2:65737/1"), (N4 2 201 1 0). vm_compute. auto. Qed.
Print Assumptions C01_out_of_range_accepted_refuted.

Example C01_nonvacuous :
  valid4d (N4 2 201 65535 7) /\ Print4D (N4 2 201 65535 7) = lit "2:201/65535.7" /\
  valid4d (N4 0 0 0 0) /\ addrtext_ok (AT (Some (lit "2")) None (lit "200") None).
Proof.
  unfold valid4d, is_u16, addrtext_ok; simpl. repeat split; try lia; vm_compute;
    repeat constructor; discriminate.
Qed.

(** C02: the order on addresses. *)
Theorem C02_total_order_on_known_zones : forall a b, zone a <> 0 -> zone b <> 0 ->
  (Compare4D a b = 0 <-> a = b) /\ (Compare4D a b = -1 <-> lt4d a b) /\ (Compare4D a b = 1 <-> lt4d b a).
Proof. exact compare_cases. Qed.
Print Assumptions C02_total_order_on_known_zones.

Theorem C02_lt4d_strict_total : 
  (forall a, ~ lt4d a a) /\ (forall a b c, lt4d a b -> lt4d b c -> lt4d a c) /\
  (forall a b, lt4d a b \/ a = b \/ lt4d b a).
Proof. exact (conj lt4d_irrefl (conj lt4d_trans lt4d_total)). Qed.
Print Assumptions C02_lt4d_strict_total.

(** Zone 0 included: equality test exactly characterised, sign antisymmetric. *)
Theorem C02_equality_with_unknown_zone : forall a b,
  Compare4D a b = 0 <->
  net a = net b /\ node a = node b /\ point a = point b /\
  (zone a = zone b \/ zone a = 0 \/ zone b = 0).
Proof. exact compare_zero_iff. Qed.
Print Assumptions C02_equality_with_unknown_zone.

Theorem C02_antisymmetric : forall a b, Compare4D a b = - Compare4D b a.
Proof. exact compare_antisym. Qed.
Print Assumptions C02_antisymmetric.

(** Finding: with zone 0 the comparison is not transitive, so it is no order. *)
Theorem C02_zone0_transitivity_refuted : exists a b c,
  valid4d a /\ valid4d b /\ valid4d c /\
  Compare4D a b = 0 /\ Compare4D b c = 0 /\ Compare4D a c <> 0.
Proof.
  exists (N4 1 5 5 0), (N4 0 5 5 0), (N4 2 5 5 0).
  unfold valid4d, is_u16; simpl. repeat split; try lia; vm_compute; congruence.
Qed.
Print Assumptions C02_zone0_transitivity_refuted.

Example C02_nonvacuous : Compare4D (N4 2 5 5 0) (N4 2 5 6 0) = -1 /\ lt4d (N4 2 5 5 0) (N4 2 5 6 0).
Proof. split; [reflexivity|]. unfold lt4d; simpl. lia. Qed.
