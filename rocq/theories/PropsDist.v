(** Property theorems C12 and C13: angular distribution blocks and
    distribution data indexed by incident energy. *)
From Coq Require Import ZArith Bool List Lia Permutation Sorted.
From Coq Require Import ZifyBool ZifyNat.
From Verif Require Export EnergyAngle AngularBlock PropsBasic.
Import ListNotations.
Open Scope Z_scope.

(** ** C12 *)

(** [es] lists what the user supplies, the elastic distribution first when the
    block has a zero index; [v] is any view of a larger XSS array that starts
    with the generated words.  Index [k] of the block (0-based with elastic,
    1-based without) gives the same alternative with the same data. *)
Theorem C12_angular_block_round_trip : forall bm srt es,
  sort_contract srt -> Forall ab_ok es -> len es + ab_total es < 2 ^ 31 ->
  exists l, ab_generateXSS bm srt es = Ok l /\ len l = len es + ab_total es
  /\ forall zero v, has v l -> (zero = true -> es <> []) ->
     let nr := len es - (if zero then 1 else 0) in
     let base := if zero then 0 else 1 in
     exists o, ab_make bm v (vbeg v + len es) nr zero = Ok o
       /\ ab_v o = v /\ ab_nr o = nr
       /\ forall k e, nth_error es k = Some e ->
            (exists d, ab_datum bm o (base + Z.of_nat k) = Ok d /\ ab_shows bm e d)
            /\ ab_isGiven bm o (base + Z.of_nat k) = Ok (match e with DElse => false | _ => true end)
            /\ ab_isFullyIsotropic bm o (base + Z.of_nat k) = Ok (match e with DIso => true | _ => false end).
Proof.
  intros bm srt es H1 H2 H3. destruct (ab_round_trip bm srt es H1 H2 H3) as (l & G & L & H).
  exists l. split; [exact G|]. split; [exact L|]. intros zero v Hv Hz nr base.
  destruct (H zero v Hv Hz) as (o & A & B & C & _ & E). exists o. auto.
Qed.
Print Assumptions C12_angular_block_round_trip.

Lemma ab_of_has bm srt zero es l : sort_contract srt -> Forall ab_ok es -> len es + ab_total es < 2 ^ 31 ->
  ab_generateXSS bm srt es = Ok l -> (zero = true -> es <> []) ->
  ab_of bm srt zero es (len es - (if zero then 1 else 0))
  = ab_make bm (own l) (len es) (len es - (if zero : bool then 1 else 0)) zero.
Proof.
  intros H1 H2 H3 Hg Hz. destruct (ab_round_trip bm srt es H1 H2 H3) as (l' & G & L & H).
  rewrite Hg in G. injection G as <-. pose proof (ab_total_nonneg es). pose proof (len_nonneg es).
  assert (Hc : content (own l) l) by (apply own_content; unfold max_words; lia).
  destruct (H zero (own l) (content_has _ _ Hc) Hz) as (o & A & B & C & D & _).
  assert (Hn : 0 <= len es - (if zero then 1 else 0)).
  { destruct zero; [|lia]. destruct es; [exfalso; apply Hz; reflexivity|rewrite len_cons; nonneg; lia]. }
  change (vbeg (own l)) with 0 in *. rewrite !Z.add_0_l in *. rewrite A.
  unfold ab_of. rewrite Hg. cbn [bind]. cbn zeta. change (vbeg (own l)) with 0.
  rewrite u32_small by (destruct zero; lia).
  replace (0 + (len es - (if zero then 1 else 0)) + (if zero then 1 else 0)) with (len es) by (destruct zero; lia).
  rewrite D. cbn [bind].
  unfold ab_make in A. rewrite D in A.
  destruct (throw_if _ _) as [?| |] in A; try discriminate. cbn [bind] in A. exact A.
Qed.

(** The constructors with user data build exactly the block that is read back
    from the words they generate. *)
Theorem C12_angular_block_built : forall bm srt es l,
  sort_contract srt -> Forall ab_ok es -> len es + ab_total es < 2 ^ 31 ->
  ab_generateXSS bm srt es = Ok l ->
  ab_of_data bm srt es = ab_make bm (own l) (len es) (len es) false
  /\ (forall elastic rest, es = elastic :: rest ->
        ab_of_elastic bm srt elastic rest = ab_make bm (own l) (len rest + 1) (len rest) true).
Proof.
  intros bm srt es l H1 H2 H3 Hg. split.
  - pose proof (ab_of_has bm srt false es l H1 H2 H3 Hg ltac:(discriminate)) as H.
    rewrite Z.sub_0_r in H. exact H.
  - intros e r ->. pose proof (ab_of_has bm srt true (e :: r) l H1 H2 H3 Hg ltac:(discriminate)) as H.
    rewrite len_cons in H. unfold ab_of_elastic.
    replace (1 + len r - 1) with (len r) in H by lia. rewrite H. f_equal; lia.
Qed.
Print Assumptions C12_angular_block_built.

(** Index outside [base .. NR] throws in a Debug build, for every block. *)
Theorem C12_out_of_range_throws_in_debug : forall bm o i, debug bm = true ->
  u64 i < (if ab_zero o then 0 else 1) \/ ab_nr o < u64 i ->
  ab_datum bm o i = Throw OutOfRange /\ ab_isGiven bm o i = Throw OutOfRange
  /\ ab_isFullyIsotropic bm o i = Throw OutOfRange.
Proof.
  intros bm o i Hd Hi.
  assert (C : check bm (verifyIndex (u64 i) (if ab_zero o then 0 else 1) (ab_nr o)) = Throw OutOfRange).
  { unfold check, verifyIndex. rewrite Hd.
    destruct (Z.ltb_spec (u64 i) (if ab_zero o then 0 else 1)); cbn [orb]; [reflexivity|].
    destruct (Z.ltb_spec (ab_nr o) (u64 i)); [reflexivity|lia]. }
  unfold ab_datum, ab_isGiven, ab_isFullyIsotropic, ab_LAND, ab_LAND_. rewrite C. auto.
Qed.
Print Assumptions C12_out_of_range_throws_in_debug.

Example C12_example : exists l o a,
  ab_generateXSS Debug an_isort [DIso; DElse; DData [AIso (dbl 1); AEqui (dbl 3) (map dbl (seqZ 0 33))]; DIso] = Ok l
  /\ ab_make Debug (View (dbl 7 :: l ++ [dbl 42]) 1 (1 + len l)) 5 3 true = Ok o
  /\ ab_datum Debug o 2 = Ok (DData a) /\ an_incidentEnergies Debug a = Ok [dbl 1; dbl 3]
  /\ ab_isFullyIsotropic Debug o 0 = Ok true /\ ab_isGiven Debug o 1 = Ok false
  /\ ab_datum Debug o 4 = Throw OutOfRange.
Proof. do 3 eexists. conc. Qed.

(** ** C13 *)

(** Laws 4 and 44 (OutgoingEnergyDistributionData, KalbachMannDistributionData),
    for every locator base; [v] is any view starting with the generated words. *)
Theorem C13_outgoing_energy_round_trip : forall nbt int locb ds l,
  og_generateXSS nbt int locb ds = Ok l -> Forall tq_valid ds -> 1 <= locb -> locb + len l <= 2 ^ 31 ->
  (forall bm v, has v l -> exists o, og_make bm locb v = Ok o /\ og_shows bm locb l o nbt int ds)
  /\ (forall bm, og_of bm nbt int ds locb = og_make bm locb (own l)).
Proof.
  intros nbt int locb ds l H1 H2 H3 H4. destruct (og_round_trip nbt int locb ds l H1 H2 H3 H4) as (A & _ & B). auto.
Qed.
Print Assumptions C13_outgoing_energy_round_trip.

(** Law 67 (AngleEnergyDistributionData). *)
Theorem C13_angle_energy_round_trip : forall bm0 nbt int locb ds l,
  aed_generateXSS bm0 nbt int locb ds = Ok l -> Forall ae_valid ds -> 1 <= locb -> locb + len l <= 2 ^ 31 ->
  (forall bm v, has v l -> exists o, aed_make bm locb v = Ok o /\ aed_shows bm locb l o nbt int ds)
  /\ (forall bm, aed_of bm nbt int ds locb = aed_make bm locb (own l)).
Proof. exact aed_round_trip. Qed.
Print Assumptions C13_angle_energy_round_trip.

(** Law 61 (EnergyAngleDistributionData). *)
Theorem C13_energy_angle_round_trip : forall bm0 nbt int locb ds l,
  ead_generateXSS bm0 nbt int locb ds = Ok l -> Forall ea_valid ds -> 1 <= locb -> locb + len l <= 2 ^ 31 ->
  (forall bm v, has v l -> exists o, ead_make bm locb v = Ok o /\ ead_shows bm locb l o nbt int ds)
  /\ (forall bm, ead_of bm nbt int ds locb = ead_make bm locb (own l)).
Proof. exact ead_round_trip. Qed.
Print Assumptions C13_energy_angle_round_trip.

(** Boundaries and interpolants of different sizes are never accepted, and
    lead to an exception as soon as the distributions themselves are valid. *)
Theorem C13_rejects_ragged_interpolation : forall bm nbt int locb, len nbt <> len int ->
  (forall ds l, og_generateXSS nbt int locb ds <> Ok l)
  /\ (forall ds l, aed_generateXSS bm nbt int locb ds <> Ok l)
  /\ (forall ds l, ead_generateXSS bm nbt int locb ds <> Ok l)
  /\ (forall ds l, og_generateXSS [] [] locb ds = Ok l -> Forall tq_valid ds -> 1 <= locb ->
        locb + 2 * len nbt + len l <= 2 ^ 31 -> og_generateXSS nbt int locb ds = Throw StdException).
Proof.
  intros bm nbt int locb H.
  assert (K : forall es l, dd_generateXSS nbt int locb es <> Ok l).
  { intros es l E. unfold dd_generateXSS in E.
    repeat match type of E with bind ?e _ = Ok _ => destruct e eqn:?; try discriminate; cbn [bind] in E; cbn zeta in E end.
    match goal with Q : id_generateXSS nbt int = Ok _ |- _ => rewrite id_generateXSS_ragged in Q by congruence; discriminate end. }
  split; [|split; [|split]].
  - intros ds l. unfold og_generateXSS. destruct (mapM tq_elem ds); cbn [bind]; try discriminate. apply K.
  - intros ds l. unfold aed_generateXSS. destruct (mapM (ae_elem bm) ds); cbn [bind]; try discriminate. apply K.
  - intros ds l. unfold ead_generateXSS. destruct (mapM (ea_elem_of bm) ds); cbn [bind]; try discriminate. apply K.
  - intros ds l. unfold og_generateXSS. destruct (mapM tq_elem ds) as [es| |] eqn:E; cbn [bind]; try discriminate.
    intros Hl Hv Hb Hs. destruct (tq_words_list _ _ E) as (ws & F & ->).
    destruct (tq_es_spec _ ws F) as (W1 & W2 & W3 & W4 & W5 & W6).
    destruct (dd_generateXSS_len [] [] locb _ (map const ws) l 0 W2 W4 Hl) as [_ Hlen].
    apply (dd_generateXSS_ragged nbt int locb _ (map const ws)); auto; [lia|].
    rewrite len_bodies_const in Hlen |- *. unfold ddh_b0. change (len []) with 0 in Hlen. rewrite len_map in *. lia.
Qed.
Print Assumptions C13_rejects_ragged_interpolation.

Example C13_valid : tq_valid (TQ (dbl 1) 2 0 [dbl 0; dbl 1] [dhalf; dhalf] [dbl 0; dbl 1] [])
  /\ ae_valid (AE (dbl 1) 2 5 [TQ dhalf 2 0 [dbl 0; dbl 1] [dhalf; dhalf] [dbl 0; dbl 1] []])
  /\ ea_valid (EA (dbl 1) 2 5 [TW (dbl 1) dhalf (dbl 1) 2 [dbl 0; dbl 1] [dhalf; dhalf] [dbl 0; dbl 1]]).
Proof.
  unfold tq_valid, ae_valid, ea_valid, tw_valid. cbn [tq_interp tq_discrete ae_interp ae_dists ae_locb ea_interp ea_dists ea_locb tw_interp].
  repeat split; try lia; try (repeat constructor; cbn; lia);
  (eexists; split; [vm_compute; reflexivity|vm_compute; discriminate]).
Qed.
Definition C13_e1 := TQ (dbl 1) 2 3 [dbl 0; dbl 1] [dhalf; dhalf] [dbl 0; dbl 1] [].
Definition C13_e2 := TQ (dbl 4) 1 0 [dbl 0; dbl 2] [dhalf; dhalf] [dbl 0; dbl 1] [].
Example C13_example : exists l o t l67 o67 l61 o61 u,
  og_generateXSS [2] [2] 11 [C13_e1; C13_e2] = Ok l
  /\ og_make Debug 11 (View (dbl 9 :: l ++ [dbl 42]) 1 (1 + len l)) = Ok o
  /\ dd_datum Debug o 2 = Ok t /\ tp_values Debug (snd t) = Ok [dbl 0; dbl 2]
  /\ dd_datum Debug o 3 = Throw OutOfRange
  /\ aed_generateXSS Debug [] [] 11 [AE (dbl 1) 2 5 [C13_e1]; AE (dbl 2) 2 1 [C13_e1; C13_e2]] = Ok l67
  /\ aed_make Debug 11 (own l67) = Ok o67 /\ dd_energies Debug o67 = Ok [dbl 1; dbl 2]
  /\ ead_generateXSS Debug [] [] 11 [EA (dbl 1) 2 5 [TW (dbl 1) dhalf (dbl 1) 2 [dbl 0; dbl 1] [dhalf; dhalf] [dbl 0; dbl 1]]] = Ok l61
  /\ ead_make Debug 11 (own l61) = Ok o61 /\ dd_datum Debug o61 1 = Ok u.
Proof. do 8 eexists. conc. Qed.

(** Equiprobable bins: fewer than 33 cosines are rejected, the first 33 are the bins *)
Theorem C11_equiprobable_cosines bm e cs : len cs < max_words ->
  (len cs < 33 -> Angular.eq_of e cs = Throw StdException)
  /\ (33 <= len cs -> exists v, Angular.eq_of e cs = Ok (AEqui e v) /\ eq_cosines bm v = Ok (firstn 33 cs)).
Proof.
  intros B. unfold Angular.eq_of, throw_if. split; intros H.
  - destruct (len cs <? 33) eqn:E; [reflexivity|lia].
  - destruct (len cs <? 33) eqn:E; [lia|]. exists (own cs). split; [reflexivity|]. unfold eq_cosines.
    apply (xssr_has bm (own cs) [] (firstn 33 cs) (skipn 33 cs)); [rewrite app_nil_l, firstn_skipn; apply content_has, own_content; exact B|reflexivity|].
    unfold len in *. rewrite firstn_length. lia.
Qed.
Print Assumptions C11_equiprobable_cosines.
Example C11_equiprobable_cosines_ex : Angular.eq_of (dbl 1) (map dbl (seqZ 0 32)) = Throw StdException
  /\ Angular.eq_of (dbl 1) (map dbl (seqZ 0 33)) = Ok (AEqui (dbl 1) (own (map dbl (seqZ 0 33)))).
Proof. split; vm_compute; reflexivity. Qed.
