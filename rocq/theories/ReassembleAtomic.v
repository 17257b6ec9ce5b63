(** The blocks of a photoatomic table handed to the constructor again. *)
From Coq Require Import ZArith Bool List Lia Ascii.
From Coq Require Import ZifyBool ZifyNat.
From Verif Require Import Reassemble.
From Verif Require Export PhotoatomicValues.
Import ListNotations.
Open Scope Z_scope.

(** The charge, the (ZA, AWR) pairs and ESZG(), JINC(), JCOH(), ..., SELAS() of a table (src/ACEtk/PhotoatomicTable.hpp:321-455) in the order of the
    constructor's arguments (src/ACEtk/PhotoatomicTable/src/ctor.hpp:46-80) *)
Definition pa_own (z : Z) (za : list Z) (awr : list double) (t : paTable) : paIn :=
  PaIn z za awr (pt_eszg t) (pt_jinc t) (pt_jcoh t) (pt_lhnm t) (pt_jflo t) (pt_eps t) (pt_swd t) (pt_subsh t) (pt_sphel t) (pt_xprob t) (pt_esze t)
    (pt_excit t) (pt_elas t) (pt_eion t) (pt_breme t) (pt_breml t) (pt_selas t).

(** What a block that was read is made of *)
Definition made {A} (make : view -> outcome A) (w : list double) (S : A -> Prop) (o : A) : Prop := S o /\ exists v, content v w /\ make v = Ok o.
Lemma readable_made {A} (make : view -> outcome A) w S : readable make w S -> readable make w (made make w S).
Proof. intros R v C. destruct (R v C) as (o & E & So). exists o. split; [exact E|]. split; [exact So|]. exists v. auto. Qed.

Lemma made_ad n m w S o : made (fun v => ad_make v n m) w S o -> content (ad_v o) w /\ ad_n o = n /\ ad_m o = m.
Proof. intros (_ & v & C & E). destruct (ad_make_inv _ _ _ _ E) as (-> & -> & ->). auto. Qed.
Lemma made_bl {D} bm (gd : Z -> view -> outcome D) n b w S o : made (fun v => bl_make bm gd v (vbeg v + n) n b) w S o -> content (bl_v o) w /\ bl_n o = n.
Proof. intros (_ & v & C & E). destruct (bl_make_inv _ _ _ _ _ _ _ E) as (-> & -> & _). auto. Qed.
Lemma eb_make_inv bm v n o : eb_make bm v n = Ok o -> eb_v o = v /\ eb_n o = n.
Proof. unfold eb_make, eb_generateBlocks. intros H. inv_ok H. apply Ok_inj in H. subst o. auto. Qed.
Lemma made_eb bm n w S o : 0 <= n < 2 ^ 32 -> made (fun v => eb_make bm v n) w S o -> content (eb_v o) w /\ eb_N o = n.
Proof. intros B (_ & v & C & E). destruct (eb_make_inv _ _ _ _ E) as (-> & N). unfold eb_N. rewrite N, u32_small by lia. auto. Qed.
Lemma made_ji w S o : made ji_make w S o -> content (ad_v (ji_a o)) w.
Proof. intros (_ & v & C & E). unfold ji_make in E. inv_ok E. apply Ok_inj in E. subst o. cbn [ji_a]. destruct (ad_make_inv _ _ _ _ E1) as (-> & _). exact C. Qed.
Lemma made_jc w S o : made jc_make w S o -> content (ad_v (ji_a o)) w.
Proof. intros (_ & v & C & E). unfold jc_make in E. inv_ok E. apply Ok_inj in E. subst o. cbn [ji_a]. destruct (ad_make_inv _ _ _ _ E1) as (-> & _). exact C. Qed.

Definition pe_more bm (w : pew) (h : pe_shape) (R : pe_reads) : pe_reads := PeReads
  (made (fun v => ss_make v (h_nssh h)) (w_subsh w) (r_subsh R)) (made (fun v => sp_make v (h_nssh h) (h_nes h)) (w_sphel w) (r_sphel R))
  (made (fun v => bl_make bm xp_gd v (vbeg v + h_nssh h) (h_nssh h) false) (w_xprob w) (r_xprob R)) (made (fun v => ez_make v (h_nssh h) (h_ne h)) (w_esze w) (r_esze R))
  (made (fun v => two_make v (h_nxl h)) (w_excit w) (r_excit R)) (made (fun v => eb_make bm v (h_na h)) (w_elas w) (r_elas R))
  (fun k b => r_eion R k b /\ forall i, nth_error (w_eion w) k = Some i -> made (fun v => eb_make bm v (fst i)) (snd i) (r_eion R k) b)
  (made (fun v => eb_make bm v (h_nb h)) (w_breme w) (r_breme R)) (made (fun v => two_make v (h_nbl h)) (w_breml w) (r_breml R))
  (fun o => r_selas R o /\ forall x, w_selas w = Some x -> made (fun v => two_make v (h_ne h)) x (r_selas R) o).
Lemma pe_more_readable bm w h R : pe_readable bm w h R -> pe_readable bm w h (pe_more bm w h R).
Proof.
  intros [A1 A2 A3 A4 A5 A6 A7 A8 A9 A10]. constructor; cbn [pe_more r_subsh r_sphel r_xprob r_esze r_excit r_elas r_eion r_breme r_breml r_selas]; try (apply readable_made; assumption).
  - intros k i H. destruct (A7 k i H) as [B Q]. split; [exact B|]. intros v C. destruct (readable_made _ _ _ Q v C) as (o & E & M). exists o. split; [exact E|]. split; [apply M|].
    intros i' H'. assert (i' = i) by congruence. subst i'. exact M.
  - intros x H v C. destruct (readable_made _ _ _ (A10 x H) v C) as (o & E & M). exists o. split; [exact E|]. split; [apply M|]. intros x' H'. assert (x' = x) by congruence. subst x'. exact M.
Qed.

Definition pa_more bm (w : paW) (R : pa_reads) : pa_reads := PaReads
  (made (fun v => eg_make v (wa_nes w)) (wa_eszg w) (s_eszg R)) (made ji_make (wa_jinc w) (s_jinc R)) (made jc_make (wa_jcoh w) (s_jcoh R))
  (fun o => s_jflo R o /\ forall n x, wa_jflo w = Some (n, x) -> made (fun v => jf_make v n) x (s_jflo R) o)
  (made (fun v => lq_make v (wa_nes w)) (wa_lhnm w) (s_lhnm R))
  (fun o => s_eps R o /\ forall n x y, wa_shells w = Some (n, x, y) -> made (fun v => ep_make v n) x (s_eps R) o)
  (fun o => s_swd R o /\ forall n x y, wa_shells w = Some (n, x, y) -> made (fun v => bl_make bm (swd_gd bm) v (vbeg v + n) n true) y (s_swd R) o)
  (match wa_el w with Some (e, h) => pe_more bm e h (s_el R) | None => s_el R end).
Lemma pa_more_readable bm w R : pa_readable bm w R -> pa_readable bm w (pa_more bm w R).
Proof.
  intros [A1 A2 A3 A4 A5 A6 A7]. constructor; cbn [pa_more s_eszg s_jinc s_jcoh s_jflo s_lhnm s_eps s_swd s_el]; try (apply readable_made; assumption).
  - intros n x H. destruct (A4 n x H) as [B Q]. split; [exact B|]. intros v C. destruct (readable_made _ _ _ Q v C) as (o & E & M). exists o. split; [exact E|]. split; [apply M|].
    intros n' x' H'. rewrite H in H'. apply some_eq in H'. apply pair_equal_spec in H' as [<- <-]. exact M.
  - intros n x y H. destruct (A6 n x y H) as (B1 & B2 & B3 & Q1 & Q2). split; [exact B1|]. split; [exact B2|]. split; [exact B3|]. split.
    + intros v C. destruct (readable_made _ _ _ Q1 v C) as (o & E & M). exists o. split; [exact E|]. split; [apply M|]. intros n' x' y' H'. rewrite H in H'. apply some_eq in H'.
      apply pair_equal_spec in H' as [H' <-]. apply pair_equal_spec in H' as [<- <-]. exact M.
    + intros v C. destruct (readable_made _ _ _ Q2 v C) as (o & E & M). exists o. split; [exact E|]. split; [apply M|]. intros n' x' y' H'. rewrite H in H'. apply some_eq in H'.
      apply pair_equal_spec in H' as [H' <-]. apply pair_equal_spec in H' as [<- <-]. exact M.
  - intros e h H. rewrite H. destruct (A7 e h H) as (Q & Q'). split; [apply pe_more_readable; exact Q|exact Q'].
Qed.

Lemma ez_count n : 0 <= n < 2 ^ 32 -> u32 (u32 (6 + n) - 6) = n.
Proof. intros B. unfold u32. rewrite Zminus_mod_idemp_l. replace (6 + n - 6) with n by lia. apply Z.mod_small. exact B. Qed.

(** The blocks of the table describe the same words as the blocks it was made of *)
Lemma pa_own_given bm i w R t z : pa_given i w -> (forall e h, wa_el w = Some (e, h) -> 0 <= h_nssh h < 2 ^ 32 /\ h_na h < 2 ^ 32 /\ h_nb h < 2 ^ 32) -> pa_result w (pa_more bm w R) t ->
  pa_given (pa_own z (pa_za i) (pa_awr i) t) w.
Proof.
  intros [G1 G2 G3 G4 G5 G6 G7 G8 G9] HB [R1 R2 R3 R4 R5 R6 R7 R8]. cbn [pa_more s_eszg s_jinc s_jcoh s_jflo s_lhnm s_eps s_swd s_el] in *.
  constructor; cbn [pa_own pa_za pa_awr pa_eszg pa_jinc pa_jcoh pa_jflo pa_lhnm pa_eps pa_swd]; try assumption.
  - destruct (made_ad _ _ _ _ _ R1) as (C & N & _). split; [exact C|exact N].
  - exact (made_ji _ _ _ R2).
  - exact (made_jc _ _ _ R3).
  - destruct (wa_jflo w) as [[n x]|], (pt_jflo t) as [o|]; try exact R5; try contradiction. destruct R5 as [_ M]. destruct (made_ad _ _ _ _ _ (M n x eq_refl)) as (C & N & _). split; [exact C|exact N].
  - destruct (made_ad _ _ _ _ _ R4) as (C & N & _). split; [exact C|exact N].
  - destruct (wa_shells w) as [[[n x] y]|].
    + destruct (pt_eps t) as [e|]; [|contradiction]. destruct (pt_swd t) as [s|]; [|contradiction]. destruct R6 as [_ M6]. destruct R7 as [_ M7].
      destruct (made_ad _ _ _ _ _ (M6 n x y eq_refl)) as (C & _ & _). destruct (made_bl _ _ _ _ _ _ _ (M7 n x y eq_refl)) as (C' & N'). split; [exact C|]. split; [exact C'|]. split; [exact N'|].
      destruct (pa_eps i), (pa_swd i); try contradiction. destruct G8 as (_ & _ & _ & Q). exact Q.
    + destruct (pt_eps t), (pt_swd t); try contradiction; exact I.
  - destruct (wa_el w) as [[e h]|].
    2:{ destruct R8 as (E1 & E2 & _). split; assumption. }
    destruct R8 as (o & [O1 O2 O3 O4 O5 O6 O7 O8 O9 O10] & E1 & E2 & E3 & E4 & E5 & E6 & E7 & E8 & E9 & E10). destruct G9 as [[D1 D2 D3 D4 D5 D6 D7 D8 D9 D10 D11 D12 D13 D14 D15 D16] HN].
    destruct (HB e h eq_refl) as (B1 & B2 & B3). split; [|exact HN]. cbn [pe_more r_subsh r_sphel r_xprob r_esze r_excit r_elas r_eion r_breme r_breml r_selas] in *.
    constructor; cbn [pa_own pa_subsh pa_sphel pa_xprob pa_esze pa_excit pa_elas pa_eion pa_breme pa_breml pa_selas]; try assumption.
    + exists (pe_subsh o). destruct (made_ad _ _ _ _ _ O1) as (C & N & _). auto.
    + exists (pe_sphel o). destruct (made_ad _ _ _ _ _ O2) as (C & N & _). auto.
    + exists (pe_xprob o). destruct (made_bl _ _ _ _ _ _ _ O3) as (C & N). auto.
    + exists (pe_esze o). destruct (made_ad _ _ _ _ _ O4) as (C & N & M). split; [exact E4|]. split; [exact C|]. split; [|exact N]. unfold ez_NSSH. rewrite M. apply ez_count. exact B1.
    + exists (pe_excit o). destruct (made_ad _ _ _ _ _ O5) as (C & N & _). auto.
    + exists (pe_elas o). destruct (made_eb bm (h_na h) _ _ _ (conj D13 B2) O6) as (C & N). auto.
    + rewrite E7. split; [|exact (proj2 D7)]. destruct O7 as [L7 S7].
      assert (P : forall k b j, nth_error (pe_eion o) k = Some b -> nth_error (w_eion e) k = Some j -> ei_given b j).
      { intros k b j Hb Hj. destruct (S7 k b Hb) as [_ M]. assert (Bj : 0 <= fst j < 2 ^ 30).
        { destruct D7 as [F2 F]. rewrite Forall_forall in F. specialize (F j (nth_error_In _ _ Hj)). split; [|exact F].
          clear - F2 Hj. revert k Hj. induction F2 as [|b j' bs js H F2 IH]; intros k Hj; [destruct k; discriminate|]. destruct k; [cbn in Hj; apply some_eq in Hj; subst; apply H|exact (IH k Hj)]. }
        assert (Bj' : 0 <= fst j < 2 ^ 32) by lia. destruct (made_eb bm (fst j) _ _ _ Bj' (M j Hj)) as (C & N). split; [exact C|]. split; [exact N|lia]. }
      revert L7 P. generalize (pe_eion o) (w_eion e). clear. intros l. induction l as [|b l IH]; intros [|j m] L P; try discriminate; constructor.
      * exact (P 0%nat b j eq_refl eq_refl).
      * apply IH; [injection L as L; exact L|]. intros k b' j' Hb Hj. exact (P (S k) b' j' Hb Hj).
    + exists (pe_breme o). destruct (made_eb bm (h_nb h) _ _ _ (conj D15 B3) O8) as (C & N). auto.
    + exists (pe_breml o). destruct (made_ad _ _ _ _ _ O9) as (C & N & _). auto.
    + rewrite E10. destruct (w_selas e) as [x|], (pe_selas o) as [so|]; try contradiction; [|exact I]. destruct O10 as [_ M]. destruct (made_ad _ _ _ _ _ (M x eq_refl)) as (C & N & _). auto.
Qed.

Lemma pa_reassembled bm zaid v : verifyType ["p"%char] zaid = Ok tt -> pa_valid v ->
  exists t, pa_build bm zaid v = Ok t /\ pa_returns bm zaid v t /\ pa_of bm zaid (pa_own (vp_z v) (vp_za v) (vp_awr v) t) = Ok t.
Proof.
  intros VT V. destruct (pa_from_values_full bm zaid v VT V) as (i & t & E & R & G & Q & Iz & Ia & T & F).
  exists t. split; [exact E|]. split; [exact R|]. set (w := pv_words v) in *.
  assert (Bw : len (wa_xss w) < max_words) by exact (v_size _ V).
  destruct (pa_make_ok bm zaid (iza (vp_za v)) (awra (vp_awr v)) w (vp_z v) (len (snd (vp_jinc v))) (len (snd (vp_jcoh v))) _ VT Bw F (pa_more_readable _ _ _ Q)) as (t' & T' & _ & _ & R').
  fold w in T. rewrite T in T'. apply Ok_inj in T'. subst t'.
  assert (HB : forall e h, wa_el w = Some (e, h) -> 0 <= h_nssh h < 2 ^ 32 /\ h_na h < 2 ^ 32 /\ h_nb h < 2 ^ 32).
  { intros e h H. unfold wa_nxs in F. rewrite H in F. rewrite Forall_forall in F.
    assert (Fn : forall x, In x [h_nssh h; h_na h; h_nb h] -> 0 <= x < 2 ^ 32).
    { intros x Hx. apply F. apply in_or_app. right. apply in_or_app. left. apply in_or_app. left. cbn [In] in Hx |- *. tauto. }
    pose proof (Fn (h_nssh h) ltac:(cbn; tauto)). pose proof (Fn (h_na h) ltac:(cbn; tauto)). pose proof (Fn (h_nb h) ltac:(cbn; tauto)). lia. }
  pose proof (pa_own_given bm i w _ t (vp_z v) G HB R') as G'. rewrite Iz, Ia in G'.
  unfold pa_of. rewrite (pa_generateData_ok _ w G' Bw). cbn [pa_own pa_z pa_za pa_awr pa_jinc pa_jcoh bind].
  rewrite (proj1 (p_jinc _ _ _ _ R)), (proj1 (p_jcoh _ _ _ _ R)). exact T.
Qed.
