(** Property theorems C17 to C20: reaction numbers, fission multiplicities, probability tables
    and delayed neutron precursors; and the other one-piece blocks of a continuous-energy table. *)
From Coq Require Import ZArith Bool List Lia.
From Coq Require Import ZifyBool ZifyNat.
From Verif Require Export NuBlock PropsEnergy.
Import ListNotations.
Open Scope Z_scope.

(** ** C17 *)

(** A block made from the reaction numbers [mts], or read from a view that shows exactly these
    numbers: it reports them, finds each at its first position, and reports absent numbers as
    absent.  The same code is used for MTR, MTRP, MTRH and PTYPE. *)
Theorem C17_reaction_numbers : forall bm mts, mt_valid mts ->
  (forall v, content v (map dbl mts) -> exists o, mt_make v (len mts) = Ok o /\ mt_shows bm o mts /\ mt_lookup o mts)
  /\ (len mts < max_words -> exists o, mt_of mts = Ok o /\ content (ad_v o) (map dbl mts) /\ mt_shows bm o mts /\ mt_lookup o mts).
Proof.
  intros bm mts H. assert (R : forall v, content v (map dbl mts) -> exists o, mt_make v (len mts) = Ok o /\ mt_shows bm o mts /\ mt_lookup o mts).
  { intros v C. destruct (mt_shows_has bm v mts H (content_has _ _ C)) as [M S]. exists (ArrayData v (len mts) 1).
    split; [exact M|]. split; [exact S|]. apply mt_lookup_content; assumption. }
  split; [exact R|]. intros B. destruct (mt_of_ok mts B) as (v & E & C). exists (ArrayData v (len mts) 1).
  split; [exact E|]. split; [exact C|]. destruct (mt_shows_has bm v mts H (content_has _ _ C)) as [M S]. split; [exact S|apply mt_lookup_content; assumption].
Qed.
Print Assumptions C17_reaction_numbers.

(** index( mt ) is the position the block itself gives for mt. *)
Theorem C17_index_then_MT : forall bm mts v r, mt_valid mts -> content v (map dbl mts) -> In r mts ->
  exists o i, mt_make v (len mts) = Ok o /\ mt_index o r = Ok i /\ mt_MT bm o i = Ok r.
Proof.
  intros bm mts v r H C Hr. destruct (proj1 (C17_reaction_numbers bm mts H) v C) as (o & M & (_ & _ & S & _) & (L & _)).
  destruct (L r Hr) as (_ & k & K & I). exists o, (Z.of_nat k + 1). split; [exact M|]. split; [exact I|]. apply S. exact (proj1 K).
Qed.
Print Assumptions C17_index_then_MT.

(** YP and YH *)
Theorem C17_multiplicity_reaction_numbers : forall bm mts, mt_valid mts ->
  (forall v, content v (yp_generateXSS mts) -> yp_make bm v = Ok v /\ yp_shows bm v mts /\ yp_lookup v mts)
  /\ (len mts + 1 < max_words -> yp_shows bm (yp_of mts) mts /\ yp_lookup (yp_of mts) mts).
Proof.
  intros bm mts H. assert (R : forall v, content v (yp_generateXSS mts) -> yp_make bm v = Ok v /\ yp_shows bm v mts /\ yp_lookup v mts).
  { intros v C. destruct (yp_has bm v mts H (content_has _ _ C)) as [M S]. split; [exact M|]. split; [exact S|]. apply yp_lookup_content; assumption. }
  split; [exact R|]. intros B. apply R. apply own_content. unfold yp_generateXSS. rewrite len_cons, len_map. lia.
Qed.
Print Assumptions C17_multiplicity_reaction_numbers.

(** The constructors accept a view that runs on after the numbers.  Then an absent number is
    reported as present, at index NTR + 1 (MTR) or wherever the following words hold it (YP). *)
Theorem C17_longer_view_refuted :
  (forall mts v, mt_valid mts -> has v (map dbl mts) -> vend v <> vbeg v + len mts ->
     exists o, mt_make v (len mts) = Ok o /\ forall r, ~ In r mts -> mt_hasMT o r = Ok true /\ mt_index o r = Ok (len mts + 1))
  /\ (let v := own (yp_generateXSS [16; 18] ++ [dbl 102]) in
      yp_make Debug v = Ok v /\ yp_MTs Debug v = Ok (map dbl [16; 18]) /\ yp_hasMT v 102 = Ok true /\ yp_index v 102 = Ok 3).
Proof.
  split.
  - intros mts v H Hv E. destruct (mt_shows_has Debug v mts H Hv) as [M _]. exists (ArrayData v (len mts) 1). split; [exact M|].
    apply mt_lookup_has; assumption.
  - conc.
Qed.
Print Assumptions C17_longer_view_refuted.

Example C17_example : exists o, mt_of [2; 51; 18; 51; 102] = Ok o
  /\ mt_hasMT o 51 = Ok true /\ mt_index o 51 = Ok 2 /\ mt_hasMT o 16 = Ok false /\ mt_index o 16 = Throw StdException /\ mt_MT Debug o 5 = Ok 102.
Proof. eexists. conc. Qed.
Example C17_example_longer_view : exists o, mt_make (own (map dbl [2; 51; 102])) 2 = Ok o /\ mt_hasMT o 999 = Ok true /\ mt_index o 999 = Ok 3.
Proof. eexists. conc. Qed.

(** ** C18 *)

(** [p] and [t] are the multiplicities supplied, [lp] and [lt] the words of their objects; the block
    read from any view that starts with the generated words, or constructed from the
    multiplicities, shows them as prompt and total. *)
Theorem C18_one_multiplicity : forall bm p lp, nu_in_words p = Ok lp ->
  (forall v, has v (nu_generateXSS lp None) -> exists o, nu_make bm v = Ok o /\ nu_both o = false /\ nu_total o = None /\ nu_shows bm (nu_prompt o) p)
  /\ (len lp < max_words -> exists o, nu_of bm lp None = Ok o /\ content (nu_v o) lp
        /\ nu_both o = false /\ nu_total o = None /\ nu_shows bm (nu_prompt o) p).
Proof.
  intros bm p lp H. destruct (nu_in_words_ok _ _ H) as [W _].
  assert (T : forall o, nu_both o = false -> nu_total o = None) by (intros o; unfold nu_both; destruct (nu_total o); [discriminate|reflexivity]).
  split.
  - intros v Hv. destruct (nu_single bm v p lp W Hv) as (o & M & _ & E & S). exists o. auto.
  - intros B. pose proof (own_content lp B) as C. destruct (nu_single bm (own lp) p lp W (content_has _ _ C)) as (o & M & V & E & S).
    exists o. split; [exact M|]. rewrite V. auto.
Qed.
Print Assumptions C18_one_multiplicity.

Theorem C18_two_multiplicities : forall bm p t lp lt, nu_in_words p = Ok lp -> nu_in_words t = Ok lt ->
  (forall v, has v (nu_generateXSS lp (Some lt)) ->
     exists o d, nu_make bm v = Ok o /\ nu_both o = true /\ nu_shows bm (nu_prompt o) p /\ nu_total o = Some d /\ nu_shows bm d t)
  /\ (1 + len lp + len lt < max_words ->
     exists o d, nu_of bm lp (Some lt) = Ok o /\ content (nu_v o) (nu_generateXSS lp (Some lt))
       /\ nu_both o = true /\ nu_shows bm (nu_prompt o) p /\ nu_total o = Some d /\ nu_shows bm d t).
Proof.
  intros bm p t lp lt Hp Ht. destruct (nu_in_words_ok _ _ Hp) as [Wp _]. destruct (nu_in_words_ok _ _ Ht) as [Wt _]. split.
  - intros v Hv. destruct (nu_double bm v p t lp lt Wp Wt Hv) as (o & d & M & _ & A). exists o, d. auto.
  - intros B. assert (C : content (own (nu_generateXSS lp (Some lt))) (nu_generateXSS lp (Some lt))).
    { apply own_content. cbn [nu_generateXSS]. rewrite len_cons, len_app. lia. }
    destruct (nu_double bm _ p t lp lt Wp Wt (content_has _ _ C)) as (o & d & M & V & A).
    exists o, d. split; [exact M|]. rewrite V. auto.
Qed.
Print Assumptions C18_two_multiplicities.

Definition C18_poly := IPoly [dbl 2; dbl 1].
Definition C18_tab := ITab [2] [2] [dbl 1; dbl 20] [dbl 3; dbl 4].
Example C18_example : exists lp lt o d, nu_in_words C18_poly = Ok lp /\ nu_in_words C18_tab = Ok lt
  /\ nu_of Debug lp (Some lt) = Ok o /\ nu_both o = true /\ nu_total o = Some d
  /\ (match nu_prompt o with NuPoly v => pf_C Debug v | NuTab _ => UB end) = Ok [dbl 2; dbl 1]
  /\ (match d with NuTab o => td_y Debug (pt_tab o) | _ => UB end) = Ok [dbl 3; dbl 4].
Proof. do 4 eexists. conc. Qed.

(** A polynomial read from words whose LNU is not 1 is rejected. *)
Theorem C18_unknown_type_rejected : forall bm v n l, has v (dbl n :: l) -> 0 <= n < 2 ^ 31 -> n <> 1 -> n <> 2 -> nu_make bm v = Throw StdException.
Proof.
  intros bm v n l Hv B N1 N2. unfold nu_make, nu_generateBlocks. pose proof (has_bounds _ _ Hv) as Bd. rewrite len_cons in Bd. pose proof (len_nonneg l).
  rewrite (vlen_has _ _ Hv). destruct (Z.ltb_spec 0 (vend v - vbeg v)); [|lia].
  rewrite (xss_at bm v [] (dbl n) l) by (try exact Hv; reflexivity). cbn [bind]. rewrite dbl_ltb_0 by lia. destruct (Z.ltb_spec n 0); [lia|].
  unfold nu_generateData. rewrite (deref_has v _ _ Hv). cbn [bind]. rewrite round_to_u32_dbl by lia. cbn [bind].
  destruct (Z.eqb_spec n 1); [lia|]. destruct (Z.eqb_spec n 2); [lia|]. reflexivity.
Qed.
Print Assumptions C18_unknown_type_rejected.
Example C18_unknown_type_example : nu_of Debug [dbl 3; dbl 1; dbl 1] None = Throw StdException.
Proof. vm_compute. reflexivity. Qed.

(** ** C19 *)

(** Objects built from the tables [is] (all with the same number of bins m): the block built from
    them, and the block read from a view starting with its words, shows the flags, energies and
    tables. *)
Theorem C19_probability_tables : forall bm m int ilf ioa iff is ts,
  is <> [] -> Forall (ti_valid m) is -> mapM tb_of_in is = Ok ts ->
  0 <= int < 2 ^ 31 -> - 2 ^ 31 <= ilf < 2 ^ 31 -> - 2 ^ 31 <= ioa < 2 ^ 31 -> 0 <= iff < 2 ^ 31 ->
  6 + len is + len is * (6 * m) < max_words ->
  exists l, un_generateXSS int ilf ioa iff ts = Ok l
    /\ (exists o, un_of bm int ilf ioa iff ts = Ok o /\ content (un_v o) l /\ un_shows bm o int ilf ioa iff is)
    /\ (forall v, has v l -> exists o, un_make bm v = Ok o /\ un_shows bm o int ilf ioa iff is).
Proof.
  intros bm m int ilf ioa iff is ts Hne HF Hts B1 B2 B3 B4 Bl.
  assert (Hm : 0 <= m). { destruct is as [|i r]; [congruence|]. inversion HF as [|? ? Hi _]. destruct (ti_len _ _ Hi) as [_ <-]. apply len_nonneg. }
  assert (Lis : 1 <= len is). { destruct is; [congruence|]. rewrite len_cons. pose proof (len_nonneg is). lia. }
  assert (HT : Forall2 (fun t i => content (ad_v (tb_a t)) (ti_layout i) /\ tb_incidentEnergy t = ti_e i /\ tb_numberBins t = m) ts is).
  { assert (Bm : 6 * m < max_words) by nia. clear - bm HF Hts Bm. revert ts Hts. induction HF as [|i is Hi _ IH]; intros ts Hts.
    - apply Ok_inj in Hts. subst. constructor.
    - cbn [mapM] in Hts. destruct (ti_len _ _ Hi) as [L _]. destruct (tb_of_ok bm m i Hi ltac:(lia)) as (o & E & C & S & N & _). rewrite E in Hts. cbn [bind] in Hts.
      destruct (mapM tb_of_in is) as [ts'| |] eqn:E'; try discriminate. cbn [bind] in Hts. apply Ok_inj in Hts. subst ts.
      constructor; [|apply IH; reflexivity]. split; [exact C|]. split; [exact (proj1 S)|exact N]. }
  exists (un_layout m int ilf ioa iff is). pose proof (un_generateXSS_ok m int ilf ioa iff is ts Hne HT) as G. split; [exact G|].
  assert (L : len (un_layout m int ilf ioa iff is) < max_words).
  { unfold un_layout. rewrite !len_app, len_map, (len_concat_ti m is HF), !len_cons. change (len (@nil double)) with 0. lia. }
  pose proof (own_content _ L) as C. split.
  - destruct (un_has bm _ m int ilf ioa iff is HF Hne B1 B2 B3 B4 (content_has _ _ C)) as (o & M & V & S).
    exists o. split; [unfold un_of; rewrite G; exact M|]. rewrite V. auto.
  - intros v Hv. destruct (un_has bm v m int ilf ioa iff is HF Hne B1 B2 B3 B4 Hv) as (o & M & V & S). exists o. auto.
Qed.
Print Assumptions C19_probability_tables.

Definition C19_t (e : Z) (n : nat) : tb_in :=
  TbIn (dbl e) (repeat (dbl (e + 1)) n) (repeat (dbl (e + 2)) n) (repeat (dbl (e + 3)) n) (repeat (dbl (e + 4)) n) (repeat (dbl (e + 5)) n) (repeat (dbl (e + 6)) n).
Example C19_example : exists ts o t, mapM tb_of_in [C19_t 1 2; C19_t 20 2] = Ok ts /\ un_of Debug 2 (-1) (-1) 0 ts = Ok o
  /\ un_N Debug (un_v o) = Ok 2 /\ un_M Debug (un_v o) = Ok 2 /\ un_ILF Debug (un_v o) = Ok (-1)
  /\ un_probabilityTable Debug o 2 = Ok t /\ tb_incidentEnergy t = dbl 20 /\ tb_fission Debug t = Ok [dbl 24; dbl 24].
Proof. do 3 eexists. conc. Qed.

(** Tables with different numbers of bins are accepted, and the second comes back with other values
    (first case) or the block is rejected although every table is valid (second case). *)
Theorem C19_different_bins_refuted :
  (exists ts o t, mapM tb_of_in [C19_t 1 1; C19_t 20 2] = Ok ts /\ un_of Debug 2 0 0 0 ts = Ok o
     /\ un_probabilityTable Debug o 2 = Ok t /\ tb_numberBins t = 1 /\ tb_cumulativeProbabilities Debug t = Ok [dbl 21]
     /\ tb_total Debug t = Ok [dbl 21] /\ ti_t (C19_t 20 2) = [dbl 22; dbl 22])
  /\ (exists ts o t, mapM tb_of_in [C19_t 1 2; C19_t 20 1] = Ok ts /\ un_of Debug 2 0 0 0 ts = Ok o
     /\ un_probabilityTable Debug o 2 = Ok t /\ tb_numberBins t = 2 /\ tb_heating Debug t = UB).
Proof. split; do 3 eexists; conc. Qed.
Print Assumptions C19_different_bins_refuted.

(** The constructor without fission data, documented as ( incident, probabilities, total, elastic,
    capture, heating ), swaps the first two: cumulativeProbabilities() returns the second argument
    and total() the first; and if [total] is moved from before its size is taken, which the
    language allows, every non-empty table is rejected. *)
Theorem C19_table_without_fission_refuted : forall bm e p t el c h m, all_len m [p; t; el; c; h] -> 0 < m -> 6 * m < max_words ->
  (exists o, tb_of5 false e p t el c h = Ok o /\ tb_cumulativeProbabilities bm o = Ok t /\ tb_total bm o = Ok p
     /\ tb_elastic bm o = Ok el /\ tb_capture bm o = Ok c /\ tb_heating bm o = Ok h /\ tb_fission bm o = Ok (repeat (dbl 0) (Z.to_nat m)))
  /\ tb_of5 true e p t el c h = Throw StdException.
Proof.
  intros bm e p t el c h m H Hm B. unfold max_words in B.
  assert (E5 : len p = m /\ len t = m /\ len el = m /\ len c = m /\ len h = m) by (unfold all_len in H; rewrite Forall_forall in H; repeat split; apply H; cbn; tauto).
  destruct E5 as (<- & Et & Eel & Ec & Eh).
  split.
  - set (i := TbIn e t p el (repeat (dbl 0) (Z.to_nat (len p))) c h).
    assert (V : ti_valid (len p) i). { repeat constructor; try assumption; cbn. rewrite len_repeat. lia. }
    destruct (ti_len _ _ V) as [L _]. destruct (tb_of_ok bm (len p) i V ltac:(unfold max_words; lia)) as (o & E & _ & S & _).
    exists o. unfold tb_of5. rewrite u32_small by lia. split; [exact E|].
    destruct S as (S1 & S2 & S3 & S4 & S5 & S6 & S7 & S8). cbn in S3, S4, S5, S6, S7, S8. repeat (split; [assumption|]). exact S6.
  - unfold tb_of5. rewrite u32_small by lia. cbn [Z.to_nat repeat].
    apply (tb_of_ragged (TbIn e t p el [] c h)). intros V. unfold ti_valid in V. cbn [ti_arrays ti_p ti_t ti_el ti_f ti_c ti_h] in V.
    unfold all_len in V; rewrite Forall_forall in V; pose proof (V [] ltac:(cbn; tauto)) as V4. change (len (@nil double)) with 0 in V4. lia.
Qed.
Print Assumptions C19_table_without_fission_refuted.
Example C19_without_fission_example : exists o, tb_of5 false (dbl 1) [dbl 10; dbl 11] [dbl 20; dbl 21] [dbl 30; dbl 31] [dbl 50; dbl 51] [dbl 60; dbl 61] = Ok o
  /\ tb_total Debug o = Ok [dbl 10; dbl 11].
Proof. eexists. conc. Qed.

(** Arrays of different length are rejected. *)
Theorem C19_ragged_table_rejected : forall i, ~ ti_valid (len (ti_p i)) i -> tb_of_in i = Throw StdException.
Proof. exact tb_of_ragged. Qed.
Print Assumptions C19_ragged_table_rejected.
Example C19_ragged_example : tb_of (dbl 1) [dbl 1] [dbl 1] [dbl 1; dbl 2] [dbl 1] [dbl 1] [dbl 1] = Throw StdException.
Proof. vm_compute. reflexivity. Qed.

(** A block over no words: no tables, and all numbers are 0. *)
Theorem C19_empty_block : forall bm v, vempty v = true -> exists o, un_make bm v = Ok o /\ un_v o = v /\ un_data o = []
  /\ un_N bm v = Ok 0 /\ un_M bm v = Ok 0 /\ un_INT bm v = Ok 0 /\ un_ILF bm v = Ok 0 /\ un_IOA bm v = Ok 0 /\ un_IFF bm v = Ok 0
  /\ (debug bm = true -> forall i, un_probabilityTable bm o i = Throw OutOfRange).
Proof.
  intros bm v E. exists (Unr v []). unfold un_probabilityTable, un_make, un_generateBlocks, un_N, un_M, un_INT, un_ILF, un_IOA, un_IFF, un_word. cbn [un_v un_data]. rewrite E. cbn [bind].
  repeat (split; [reflexivity|]). intros D i. rewrite D. unfold verifyIndex.
  replace ((u64 i <? 1) || (u32 0 <? u64 i)) with true; [reflexivity|]. change (u32 0) with 0. symmetry. apply orb_true_iff. lia.
Qed.
Print Assumptions C19_empty_block.
Example C19_empty_example : vempty (own []) = true.
Proof. reflexivity. Qed.

(** An empty list of tables is undefined behaviour ([front()] of an empty vector). *)
Theorem C19_no_tables_refuted : forall bm int ilf ioa iff, un_of bm int ilf ioa iff [] = UB.
Proof. reflexivity. Qed.
Print Assumptions C19_no_tables_refuted.

(** ** C20 *)

(** [is] are the groups supplied, [ls] the words of their objects.  Group numbers are assigned by
    position. *)
Theorem C20_precursors : forall bm is ls, mapM bi_words is = Ok ls ->
  (forall v, has v (bd_generateXSS ls) -> exists o, bd_make bm v (len is) = Ok o /\ bd_shows bm o is)
  /\ (len (bd_generateXSS ls) < max_words -> exists o, bd_of bm ls = Ok o /\ content (bd_v o) (bd_generateXSS ls) /\ bd_shows bm o is).
Proof.
  intros bm is ls H. assert (Forall bi_valid is /\ ls = map bi_layout is) as [HF ->].
  { revert ls H. induction is as [|i is IH]; intros ls H; cbn [mapM] in H.
    - apply Ok_inj in H. subst. split; [constructor|reflexivity].
    - destruct (bi_words i) as [l| |] eqn:E; try discriminate. cbn [bind] in H. destruct (mapM bi_words is) as [ls'| |]; try discriminate.
      cbn [bind] in H. apply Ok_inj in H. subst ls. destruct (bi_words_ok _ _ E) as [V ->]. destruct (IH _ eq_refl) as [V' ->]. split; [constructor; assumption|reflexivity]. }
  assert (R : forall v, has v (bd_generateXSS (map bi_layout is)) -> exists o, bd_make bm v (len is) = Ok o /\ bd_v o = v /\ bd_shows bm o is) by (intros v Hv; apply bd_has; assumption).
  split.
  - intros v Hv. destruct (R v Hv) as (o & M & _ & S). exists o. auto.
  - intros B. pose proof (own_content _ B) as C. destruct (R _ (content_has _ _ C)) as (o & M & V & S).
    exists o. unfold bd_of. rewrite len_map. rewrite u32_small.
    + split; [exact M|]. rewrite V. auto.
    + split; [apply len_nonneg|]. assert (len is <= len (bd_generateXSS (map bi_layout is))); [|unfold max_words in B; lia].
      clear - HF. unfold bd_generateXSS. induction HF as [|i is Hi _ IH]; [reflexivity|]. cbn [map concat]. rewrite len_app, len_cons, (len_bi_layout i Hi).
      pose proof (len_nonneg (bi_nbt i)); pose proof (len_nonneg (bi_e i)). lia.
Qed.
Print Assumptions C20_precursors.

Definition C20_g1 := BdIn (dbl 7) [] [] [dbl 1; dbl 20] [dbl 3; dbl 3].
Definition C20_g2 := BdIn (dbl 8) [3] [2] [dbl 1; dbl 5; dbl 20] [dbl 4; dbl 5; dbl 6].
Example C20_example : exists ls o d, mapM bi_words [C20_g1; C20_g2] = Ok ls /\ bd_of Debug ls = Ok o
  /\ bd_precursorGroupData Debug o 2 = Ok d /\ dp_number d = 2 /\ dp_DEC Debug d = Ok (dbl 8) /\ td_y Debug (pt_tab (dp_tab d)) = Ok [dbl 4; dbl 5; dbl 6].
Proof. do 3 eexists. conc. Qed.

(** The number given to a group by the user is replaced by its position. *)
Theorem C20_group_number_refuted : exists l d0 o d,
  dp_of Debug 6 (dbl 7) [] [] [dbl 1; dbl 20] [dbl 3; dbl 3] = Ok d0 /\ dp_number d0 = 6 /\ xss_all (pt_v (dp_tab d0)) = Ok l
  /\ bd_of Debug [l] = Ok o /\ bd_precursorGroupData Debug o 1 = Ok d /\ dp_number d = 1.
Proof. do 4 eexists. conc. Qed.
Print Assumptions C20_group_number_refuted.

(** ** The other one-piece blocks (used by C21) *)

(** LQR and GPD *)
Theorem C35_q_values : forall bm qs,
  (forall v, has v qs -> exists o, lq_make v (len qs) = Ok o /\ lq_shows bm o qs)
  /\ (len qs < max_words -> exists o, lq_of qs = Ok o /\ content (ad_v o) qs /\ lq_shows bm o qs).
Proof.
  intros bm qs. split; [|apply lq_of_ok]. intros v Hv. destruct (lq_has bm v qs Hv) as (o & M & _ & S). eauto.
Qed.
Print Assumptions C35_q_values.

(** ESZ *)
Theorem C35_principal_cross_sections : forall bm en tot dis el heat, all_len (len en) [en; tot; dis; el; heat] ->
  (forall v, has v (concat [en; tot; dis; el; heat]) -> exists o, esz_make v (len en) = Ok o /\ esz_shows bm o en tot dis el heat)
  /\ (len (concat [en; tot; dis; el; heat]) < max_words ->
      exists o, esz_of en tot dis el heat = Ok o /\ content (ad_v o) (concat [en; tot; dis; el; heat]) /\ esz_shows bm o en tot dis el heat).
Proof.
  intros bm en tot dis el heat H. split; [|apply esz_of_ok; exact H]. intros v Hv. destruct (esz_has bm v _ _ _ _ _ H Hv) as (o & M & _ & S). eauto.
Qed.
Print Assumptions C35_principal_cross_sections.

(** HPD *)
Theorem C35_secondary_particle_production : forall bm index p h l, 0 <= index < 2 ^ 53 -> hpd_generateXSS index p h = Ok l ->
  (forall v, has v l -> hpd_make bm v = Ok v /\ hpd_shows bm v index p h)
  /\ (len l < max_words -> exists v, hpd_of index p h = Ok v /\ content v l /\ hpd_shows bm v index p h).
Proof.
  intros bm index p h l Hi G. pose proof G as G0. unfold hpd_generateXSS in G. destruct (Z.eqb_spec (len h) (len p)) as [E|]; [|discriminate].
  cbn [negb throw_if bind] in G. apply Ok_inj in G. subst l. split.
  - intros v Hv. apply hpd_has; assumption.
  - intros B. pose proof (own_content _ B) as C. eexists. split; [unfold hpd_of; rewrite G0; reflexivity|]. split; [exact C|]. apply hpd_has; [exact Hi|exact E|exact (content_has _ _ C)].
Qed.
Print Assumptions C35_secondary_particle_production.

(** NTRO and IXS *)
Theorem C35_secondary_particle_information : forall bm ns, mt_valid ns ->
  (forall v, has v (nt_generateXSS ns) -> exists o, nt_make v (len ns) = Ok o /\ nt_shows bm o ns)
  /\ (len ns < max_words -> content (nt_v (nt_of ns)) (nt_generateXSS ns) /\ nt_shows bm (nt_of ns) ns).
Proof.
  intros bm ns H. split; [|apply nt_of_ok; exact H]. intros v Hv. destruct (nt_has bm v ns H Hv) as [M S]. eauto.
Qed.
Print Assumptions C35_secondary_particle_information.
Theorem C35_secondary_particle_locators : forall bm ls, ix_valid ls ->
  (forall v, has v (ix_generateXSS ls) -> exists o, ix_make v (len ls) = Ok o /\ ix_shows bm o ls)
  /\ (len (ix_generateXSS ls) < max_words -> content (nt_v (ix_of ls)) (ix_generateXSS ls) /\ ix_shows bm (ix_of ls) ls).
Proof.
  intros bm ls H. split; [|apply ix_of_ok; exact H]. intros v Hv. destruct (ix_has bm v ls H Hv) as [M S]. eauto.
Qed.
Print Assumptions C35_secondary_particle_locators.

Example C35_blocks_example : exists o v, esz_of [dbl 1; dbl 2] [dbl 3; dbl 4] [dbl 5; dbl 6] [dbl 7; dbl 8] [dbl 9; dbl 10] = Ok o
  /\ esz_elastic Debug o = Ok [dbl 7; dbl 8] /\ hpd_of 3 [dbl 1; dbl 2] [dbl 4; dbl 5] = Ok v /\ hpd_heating Debug v = Ok [dbl 4; dbl 5]
  /\ nt_NP Debug (nt_of [4; 7]) 2 = Ok 7 /\ ix_LLOC Debug (ix_of [[1;2;3;4;5;6;7;8;9;10]; [11;12;13;14;15;16;17;18;19;20]]) 2 3 = Ok 13.
Proof. do 2 eexists. conc. Qed.
