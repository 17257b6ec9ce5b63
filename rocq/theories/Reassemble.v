(** The blocks of a continuous-energy table handed to the constructor again. *)
From Coq Require Import ZArith Bool List Lia Ascii.
From Coq Require Import ZifyBool ZifyNat.
From Verif Require Export CeFromValues.
Import ListNotations.
Open Scope Z_scope.

(** * Specification *)

(** What a user writes to build a table from the blocks of another one: ESZ(), NU(), ..., YH( index )
    (src/ACEtk/ContinuousEnergyTable.hpp:253-702) in the order of the constructor's arguments
    (src/ACEtk/ContinuousEnergyTable/src/ctor.hpp:117-154); the secondary particle blocks are given as
    vectors when the table has them (PTYPE). *)
Definition particle_blocks {A} (t : ceTable) (f : particle -> A) : option (list A) :=
  match ct_ptype t with Some _ => Some (map f (ct_particles t)) | None => None end.
Definition ce_own (t : ceTable) : ceIn :=
  CeIn (ct_esz t) (ct_nu t) (ct_mtr t) (ct_lqr t) (ct_sig t) (ct_ang t) (ct_dlw t)
    (ct_gpd t) (ct_mtrp t) (ct_sigp t) (ct_andp t) (ct_dlwp t) (ct_yp t) (ct_unr t) (ct_dnu t) (ct_bdd t) (ct_dned t)
    (ct_ptype t) (particle_blocks t p_hpd) (particle_blocks t p_mtrh) (particle_blocks t p_sigh)
    (particle_blocks t p_andh) (particle_blocks t p_dlwh) (particle_blocks t p_yh).

Lemma some_eq {A} (x y : A) : Some x = Some y -> x = y. Proof. congruence. Qed.
(** * The constructors keep the words they are given *)

Ltac inv_ok H := repeat match type of H with bind ?o _ = Ok _ => let E := fresh "E" in destruct o eqn:E; cbn [bind] in H; [|discriminate H|discriminate H] end.

Lemma ad_make_inv v n m o : ad_make v n m = Ok o -> ad_v o = v /\ ad_n o = n /\ ad_m o = m.
Proof. unfold ad_make. intros H. inv_ok H. apply Ok_inj in H. subst o. auto. Qed.
Lemma nu_make_inv bm v o : nu_make bm v = Ok o -> nu_v o = v.
Proof.
  unfold nu_make, nu_generateBlocks. intros H. repeat (match type of H with
    | bind ?o _ = Ok _ => let E := fresh "E" in destruct o eqn:E; cbn [bind] in H; [|discriminate H|discriminate H]
    | (if ?b then _ else _) = Ok _ => destruct b end); apply Ok_inj in H; subst o; reflexivity.
Qed.
Lemma bl_make_inv {D} bm (gd : Z -> view -> outcome D) v x n b o : bl_make bm gd v x n b = Ok o -> bl_v o = v /\ bl_n o = n /\ bl_locator o = b.
Proof. unfold bl_make. intros H. inv_ok H. apply Ok_inj in H. subst o. auto. Qed.
Lemma ab_make_inv bm v x n z o : ab_make bm v x n z = Ok o -> ab_v o = v /\ ab_nr o = n.
Proof. unfold ab_make. intros H. inv_ok H. apply Ok_inj in H. subst o. auto. Qed.
Lemma dl_make_inv bm v x t n o : dl_make bm v x t n = Ok o -> dl_v o = v /\ dl_NR o = n /\ dl_tyr o = t /\ dl_frames o = firstn (Z.to_nat n) (ty_frames t).
Proof. unfold dl_make, dl_generateBlocks. intros H. inv_ok H. match type of H with (if ?b then _ else _) = _ => destruct b end; [discriminate H|]. apply Ok_inj in H. subst o. auto. Qed.
Lemma dh_make_inv bm v x n t o : dh_make bm v x n t = Ok o -> bl_v (dh_block o) = v /\ dh_NR o = n
  /\ match t with Some t => dh_frames o = map Some (firstn (Z.to_nat n) (ty_frames t)) | None => True end.
Proof.
  unfold dh_make. intros H. inv_ok H. apply Ok_inj in H. subst o. cbn [dh_block dh_frames]. destruct (bl_make_inv _ _ _ _ _ _ _ E) as (B1 & B2 & B3).
  split; [exact B1|]. split; [exact B2|]. destruct t; [|exact Logic.I]. unfold dh_generateFrames in E0. match type of E0 with (if ?b then _ else _) = _ => destruct b end; [discriminate E0|]. apply Ok_inj in E0. congruence.
Qed.
Lemma bd_make_inv bm v n o : bd_make bm v n = Ok o -> bd_v o = v /\ bd_NPCR o = n.
Proof. unfold bd_make, bd_generateBlocks. intros H. inv_ok H. apply Ok_inj in H. subst o. auto. Qed.
Lemma yp_make_inv bm v o : yp_make bm v = Ok o -> o = v.
Proof. unfold yp_make. intros H. inv_ok H. apply Ok_inj in H. congruence. Qed.
Lemma hpd_make_inv bm v o : hpd_make bm v = Ok o -> o = v.
Proof. unfold hpd_make. intros H. inv_ok H. apply Ok_inj in H. congruence. Qed.
Lemma un_make_inv bm v o : un_make bm v = Ok o -> un_v o = v.
Proof. unfold un_make, un_generateBlocks. intros H. inv_ok H. apply Ok_inj in H. subst o. auto. Qed.

(** * The blocks of the table with their words *)

Definition more {A} (vw : A -> view) (P : A -> Prop) (c : claim A) : claim A := (fst c, fun o => snd c o /\ content (vw o) (fst c) /\ P o).
Lemma more_reads {A} (make : view -> outcome A) vw (P : A -> Prop) c :
  (forall v o, make v = Ok o -> vw o = v /\ P o) -> readable make (fst c) (snd c) -> readable make (fst (more vw P c)) (snd (more vw P c)).
Proof. intros H R v C. destruct (R v C) as (o & E & S). exists o. split; [exact E|]. destruct (H v o E) as [V Q]. cbn. rewrite V. auto. Qed.

Definition more_photon (g : photonS) : photonS :=
  PhotonS (g_n g) (more ad_v (fun _ => True) (g_gpd g)) (more ad_v (fun o => mt_NTR o = g_n g) (g_mtrp g)) (more (@bl_v _) (fun _ => True) (g_sigp g))
    (more ab_v (fun o => ab_nr o = g_n g) (g_andp g)) (more (fun o => bl_v (dh_block o)) (fun o => dh_NR o = g_n g) (g_dlwp g)) (more (fun v => v) (fun _ => True) (g_yp g)).
Definition more_delayed (b : delayedS) : delayedS :=
  DelayedS (b_n b) (more nu_v (fun _ => True) (b_dnu b)) (more bd_v (fun o => bd_NPCR o = b_n b) (b_bdd b)) (more (fun o => bl_v (dh_block o)) (fun o => dh_NR o = b_n b) (b_dned b)).
Definition more_particle (q : particleS) : particleS :=
  ParticleS (q_n q) (q_frames q) (more (fun v => v) (fun _ => True) (q_hpd q)) (more ad_v (fun o => mt_NTR o = q_n q) (q_mtrh q))
    (more (@bl_v _) (fun _ => True) (q_sigh q)) (more ab_v (fun _ => True) (q_andh q))
    (more (fun o => bl_v (dh_block o)) (fun o => dh_frames o = map Some (firstn (Z.to_nat (q_n q)) (q_frames q))) (q_dlwh q)) (more (fun v => v) (fun _ => True) (q_yh q)).
Definition more_ce (s : ceS) : ceS :=
  CeS (s_nes s) (s_nr s) (s_mts s) (s_xs s) (s_frames s) (s_ms s)
    (more ad_v (fun o => ad_n o = s_nes s /\ ad_m o = 5) (s_esz s)) (option_map (more nu_v (fun _ => True)) (s_nu s))
    (fun o => s_mtr s o /\ content (ad_v o) (map dbl (s_mts s)) /\ ad_n o = s_ntr s /\ ad_m o = 1) (more ad_v (fun o => mt_NTR o = s_ntr s) (s_lqr s))
    (fun o => s_sig s o /\ content (bl_v o) (bl_layout true (s_xs s)) /\ bl_n o = s_ntr s /\ bl_locator o = true)
    (more ab_v (fun o => ab_nr o = s_nr s) (s_ang s))
    (more dl_v (fun o => dl_NR o = s_nr s /\ dl_frames o = firstn (Z.to_nat (s_nr s)) (all_frames s) /\ ty_mults (dl_tyr o) = all_ms s) (s_dlw s))
    (s_unr s) (option_map more_delayed (s_delayed s)) (option_map more_photon (s_photon s))
    (more ad_v (fun o => mt_NTR o = s_ntype s) (s_ptype s)) (map more_particle (s_particles s)).

Lemma words_or_map {A B} (f : A -> claim B) (g : A -> A) o : (forall x, fst (f (g x)) = fst (f x)) -> words_or f (option_map g o) = words_or f o.
Proof. intros H. destruct o; [apply H|reflexivity]. Qed.
Lemma given_map {A B} (g : A -> B) o : given (option_map g o) = given o.
Proof. destruct o; reflexivity. Qed.

Section More.
  Variable s : ceS.
  Lemma more_pieces : ce_pieces (more_ce s) = ce_pieces s.
  Proof.
    unfold ce_pieces, all_frames, all_ms, s_ntr. cbn [more_ce s_nes s_nr s_mts s_xs s_frames s_ms s_esz s_nu s_lqr s_ang s_dlw s_unr s_delayed s_photon more fst].
    destruct (s_nu s), (s_delayed s), (s_photon s); reflexivity.
  Qed.
  Lemma more_off k : ce_off (more_ce s) k = ce_off s k. Proof. unfold ce_off. rewrite more_pieces. reflexivity. Qed.
  Lemma more_END : ce_END (more_ce s) = ce_END s. Proof. apply more_off. Qed.
  Lemma more_ntype : s_ntype (more_ce s) = s_ntype s. Proof. unfold s_ntype. cbn [more_ce s_particles]. apply len_map. Qed.
  Lemma more_parts : parts (more_ce s) = parts s. Proof. unfold parts. cbn [more_ce s_particles]. rewrite map_map. reflexivity. Qed.
  Lemma more_base : ce_base (more_ce s) = ce_base s. Proof. unfold ce_base. rewrite more_END, more_ntype. reflexivity. Qed.
  Lemma more_second : ce_second (more_ce s) = ce_second s.
  Proof. unfold ce_second. rewrite more_parts, more_base. cbn [more_ce s_particles s_ptype more fst]. destruct (s_particles s); reflexivity. Qed.
  Lemma more_words : ce_words (more_ce s) = ce_words s. Proof. unfold ce_words. rewrite more_pieces, more_second. reflexivity. Qed.
  Lemma more_or0_photon : or0 g_n (s_photon (more_ce s)) = or0 g_n (s_photon s). Proof. cbn [more_ce s_photon]. destruct (s_photon s); reflexivity. Qed.
  Lemma more_or0_delayed : or0 b_n (s_delayed (more_ce s)) = or0 b_n (s_delayed s). Proof. cbn [more_ce s_delayed]. destruct (s_delayed s); reflexivity. Qed.
  Lemma more_locators f : ce_locators (more_ce s) f = ce_locators s f.
  Proof.
    unfold ce_locators. rewrite !more_off, more_END, more_ntype, more_or0_photon, more_or0_delayed.
    cbn [more_ce s_nr s_nu s_unr s_delayed s_photon s_particles s_ptype more fst]. rewrite !given_map. destruct (s_particles s); reflexivity.
  Qed.
  Lemma more_nxs z a st : ce_nxs z a st (more_ce s) = ce_nxs z a st s.
  Proof. unfold ce_nxs. rewrite more_words, more_ntype, more_or0_photon, more_or0_delayed. reflexivity. Qed.
  Lemma more_fission f : ce_fission s f -> ce_fission (more_ce s) f.
  Proof. unfold ce_fission. rewrite more_off. exact (fun H => H). Qed.
  Lemma more_sizes : ce_sizes s -> ce_sizes (more_ce s).
  Proof.
    intros [H1 H2 H3 H4 H5 H6 H7 H8]. constructor.
    - rewrite more_words. exact H1.
    - exact H2.
    - exact H3.
    - exact H4.
    - intros I. cbn [more_ce s_nu]. specialize (H5 I). destruct (s_nu s); [discriminate|contradiction].
    - cbn [more_ce s_delayed]. intros b E. destruct (s_delayed s) as [b0|]; [|discriminate E]. apply some_eq in E. subst b. exact (H6 b0 eq_refl).
    - cbn [more_ce s_photon]. intros g E. destruct (s_photon s) as [g0|]; [|discriminate E]. apply some_eq in E. subst g. exact (H7 g0 eq_refl).
    - cbn [more_ce s_particles]. apply Forall_map. exact H8.
  Qed.
  Lemma more_found : ce_found s -> ce_found (more_ce s).
  Proof.
    intros [H1 H2 H3 H4 H5 H6 H7 H8 H9 H10]. constructor.
    - exact H1.
    - exact H2.
    - exact H3.
    - exact H4.
    - exact H5.
    - cbn [more_ce s_delayed]. intros b E. destruct (s_delayed s) as [b0|]; [|discriminate E]. apply some_eq in E. subst b. exact (H6 b0 eq_refl).
    - cbn [more_ce s_photon]. intros g E. destruct (s_photon s) as [g0|]; [|discriminate E]. apply some_eq in E. subst g. exact (H7 g0 eq_refl).
    - intros f k F K. rewrite more_locators, more_END. apply H8; [|exact K]. revert F. unfold ce_fission. rewrite more_off. exact (fun H => H).
    - cbn [more_ce s_particles]. apply Forall_map. exact H9.
    - cbn [more_ce s_particles]. intros q r E. destruct (s_particles s) as [|q0 r0]; [discriminate E|]. cbn [map] in E. injection E as <- _. rewrite more_END. exact (H10 q0 r0 eq_refl).
  Qed.
  Lemma all_frames_len : ce_sizes s -> 0 <= s_nr s -> firstn (Z.to_nat (s_nr s)) (all_frames s) = s_frames s /\ firstn (Z.to_nat (s_nr s)) (all_ms s) = s_ms s.
  Proof.
    intros H N. destruct (sz_tyr _ H) as (F & L). pose proof (Forall2_len _ _ _ F) as LF. unfold len in L. unfold all_frames, all_ms.
    split; rewrite firstn_app.
    - replace (Z.to_nat (s_nr s)) with (length (s_frames s)) by lia. rewrite firstn_all, Nat.sub_diag. apply app_nil_r.
    - replace (Z.to_nat (s_nr s)) with (length (s_ms s)) by lia. rewrite firstn_all, Nat.sub_diag. apply app_nil_r.
  Qed.
  Lemma more_reads_all bm : ce_reads bm s -> ce_reads bm (more_ce s).
  Proof.
    intros [H1 H2 H3 H4 H5 H6 H7 H8 H9 H10 H11 H12].
    assert (X : forall v n o, mt_make v n = Ok o -> ad_v o = v /\ mt_NTR o = n) by (intros v n o E; destruct (ad_make_inv _ _ _ _ E) as (? & ? & ?); auto).
    constructor.
    - apply more_reads; [|exact H1]. intros v o E. destruct (ad_make_inv _ _ _ _ E) as (? & ? & ?); auto.
    - cbn [more_ce s_nu]. intros c E. destruct (s_nu s) as [c0|]; [|discriminate E]. apply some_eq in E. subst c. apply more_reads; [|exact (H2 c0 eq_refl)].
      intros v o E. rewrite (nu_make_inv _ _ _ E). auto.
    - intros v C. destruct (H3 v C) as (o & E & S). exists o. split; [exact E|]. cbn [more_ce s_mtr]. destruct (ad_make_inv _ _ _ _ E) as (V & ? & ?). rewrite V. auto.
    - apply more_reads; [|exact H4]. intros v o E. exact (X v _ o E).
    - intros v C. destruct (H5 v C) as (o & E & S). exists o. split; [exact E|]. cbn [more_ce s_sig]. destruct (bl_make_inv _ _ _ _ _ _ _ E) as (V & ? & ?). rewrite V. auto.
    - apply more_reads; [|exact H6]. intros v o E. exact (ab_make_inv _ _ _ _ _ _ E).
    - intros t T. apply more_reads; [|exact (H7 t T)]. intros v o E. destruct (dl_make_inv _ _ _ _ _ _ E) as (E1 & E2 & E3 & E4). destruct T as (_ & T1 & T2 & _).
      change (all_frames (more_ce s)) with (all_frames s) in T1. change (all_ms (more_ce s)) with (all_ms s) in T2. rewrite E3, E4, T1, T2. auto.
    - exact H8.
    - cbn [more_ce s_delayed]. intros b E. destruct (s_delayed s) as [b0|]; [|discriminate E]. apply some_eq in E. subst b. destruct (H9 b0 eq_refl) as (R1 & R2 & R3).
      split; [|split]; (apply more_reads; [|assumption]); intros v o E.
      + rewrite (nu_make_inv _ _ _ E). auto.
      + exact (bd_make_inv _ _ _ _ E).
      + destruct (dh_make_inv _ _ _ _ _ _ E) as (? & ? & _). auto.
    - cbn [more_ce s_photon]. intros g E. destruct (s_photon s) as [g0|]; [|discriminate E]. apply some_eq in E. subst g. destruct (H10 g0 eq_refl) as (R1 & R2 & R3 & R4 & R5 & R6).
      repeat split; (apply more_reads; [|assumption]); intros v o E.
      + destruct (ad_make_inv _ _ _ _ E) as (? & ? & ?); auto.
      + exact (X v _ o E).
      + destruct (bl_make_inv _ _ _ _ _ _ _ E) as (? & ? & ?). auto.
      + exact (ab_make_inv _ _ _ _ _ _ E).
      + destruct (dh_make_inv _ _ _ _ _ _ E) as (? & ? & _). auto.
      + split; [exact (yp_make_inv _ _ _ E)|exact Logic.I].
    - rewrite more_ntype. apply more_reads; [|exact H11]. intros v o E. exact (X v _ o E).
    - cbn [more_ce s_particles]. apply Forall_map. eapply Forall_impl; [|exact H12]. intros q (R1 & R2 & R3 & R4 & R5 & R6).
      split; [|split; [|split; [|split; [|split]]]].
      + apply more_reads; [|exact R1]. intros v o E. split; [exact (hpd_make_inv _ _ _ E)|exact Logic.I].
      + apply more_reads; [|exact R2]. intros v o E. exact (X v _ o E).
      + apply more_reads; [|exact R3]. intros v o E. destruct (bl_make_inv _ _ _ _ _ _ _ E) as (? & ? & ?). auto.
      + apply more_reads; [|exact R4]. intros v o E. destruct (ab_make_inv _ _ _ _ _ _ E). auto.
      + intros t T. apply more_reads; [|exact (R5 t T)]. intros v o E. destruct (dh_make_inv _ _ _ _ _ _ E) as (V & _ & F). destruct T as (_ & T1 & _).
        cbn [more_particle q_frames] in T1. rewrite T1 in F. split; [exact V|exact F].
      + apply more_reads; [|exact R6]. intros v o E. split; [exact (yp_make_inv _ _ _ E)|exact Logic.I].
  Qed.
  Lemma more_shows bm t : ce_shows bm (more_ce s) t -> ce_shows bm s t.
  Proof.
    intros [H1 H2 H3 H4 H5 H6 H7 H8 H9 H10 H11 H12 H13 H14 H15 H16 H17 H18 H19 H20 H21 H22].
    assert (G : forall A B (o : option A) (f : A -> claim B) (g : A -> A) x, (forall a, exists vw P, f (g a) = more vw P (f a)) -> group_says (option_map g o) f x -> group_says o f x).
    { intros A B o f g x E H. destruct o as [a|], x; cbn in *; try exact H. destruct (E a) as (vw & P & Ea). rewrite Ea in H. exact (proj1 H). }
    rewrite more_base, more_parts in H21. rewrite more_ntype in * || idtac.
    constructor; try (apply (proj1 H1) || exact (proj1 H3) || exact (proj1 H4) || exact H5 || exact (proj1 H6) || exact (proj1 H7) || exact (proj1 H8) || exact H15).
    - cbn [more_ce s_nu] in H2. destruct (s_nu s), (ct_nu t); cbn in *; try exact H2. exact (proj1 H2).
    - eapply G; [|exact H9]. intros a. do 2 eexists. reflexivity.
    - eapply G; [|exact H10]. intros a. do 2 eexists. reflexivity.
    - eapply G; [|exact H11]. intros a. do 2 eexists. reflexivity.
    - eapply G; [|exact H12]. intros a. do 2 eexists. reflexivity.
    - eapply G; [|exact H13]. intros a. do 2 eexists. reflexivity.
    - eapply G; [|exact H14]. intros a. do 2 eexists. reflexivity.
    - eapply G; [|exact H16]. intros a. do 2 eexists. reflexivity.
    - eapply G; [|exact H17]. intros a. do 2 eexists. reflexivity.
    - eapply G; [|exact H18]. intros a. do 2 eexists. reflexivity.
    - cbn [more_ce s_particles s_ptype] in H19. destruct (s_particles s), (ct_ptype t); cbn [map] in H19; try exact H19. exact (proj1 H19).
    - cbn [more_ce s_particles] in H20. destruct (s_particles s) as [|q r], (ct_ntro t); cbn [map] in H20; try exact H20.
      cbn [map]. rewrite map_map in H20. exact H20.
    - cbn [more_ce s_particles] in H21. destruct (s_particles s), (ct_ixs t); cbn [map] in H21; exact H21.
    - cbn [more_ce s_particles] in H22. clear -H22. remember (ct_particles t) as ps. clear Heqps. remember (s_particles s) as qs. clear Heqqs.
      revert ps H22. induction qs as [|q qs IH]; intros ps H; cbn [map] in H; inversion H; subst; constructor; [|apply IH; assumption].
      match goal with X : particle_shows _ _ _ |- _ => destruct X as [P1 P2 P3 P4 P5 P6 P7] end.
      constructor; [exact (proj1 P1)|exact (proj1 P2)|exact P3|exact (proj1 P4)|exact (proj1 P5)|exact (proj1 P6)|exact (proj1 P7)].
  Qed.
End More.

(** * The blocks of the table are its pieces *)

Lemma ce_blocks_unr bm zaid d t : ce_generateBlocks bm zaid d = Ok t -> exists ntype j23, ce_N bm d 7 = Ok ntype /\ d_JXS bm d 23 = Ok j23
  /\ opt_block (0 <? j23) (one bm d ntype 23 (un_make bm)) = Ok (ct_unr t).
Proof.
  unfold ce_generateBlocks. intros H. cbv zeta in H. inv_ok H.
  match type of H with (if ?b then _ else _) = _ => destruct b end; inv_ok H; apply Ok_inj in H; subst t; cbn [ct_unr]; eauto.
Qed.

Lemma Forall2_at_r {A B} (R : A -> B -> Prop) : forall l r k y, Forall2 R l r -> nth_error r k = Some y -> exists x, nth_error l k = Some x /\ R x y.
Proof.
  intros l r k y H. revert k. induction H as [|a b l r H0 H IH]; intros [|k] E; cbn in *; try discriminate.
  - apply some_eq in E. subst. eauto.
  - apply IH. exact E.
Qed.
Lemma fission_unique s f g : ce_fission s f -> ce_fission s g -> f = g.
Proof.
  intros [F1 F2] [G1 G2]. destruct (in_dec Z.eq_dec 18 (s_mts s)) as [H|H]; [|rewrite (F2 H), (G2 H); reflexivity].
  destruct (F1 H) as (k & (K1 & K2) & ->). destruct (G1 H) as (j & (J1 & J2) & ->).
  assert (k = j); [|subst; reflexivity]. destruct (Nat.lt_trichotomy k j) as [L|[L|L]]; [|exact L|].
  - exfalso. exact (J2 k L K1).
  - exfalso. exact (K2 j L J1).
Qed.

Section Own.
  Variables (bm : build) (s : ceS) (f : Z) (z a st : Z) (zaid : list ascii).
  Hypothesis HZ : ce_sizes s.
  Hypothesis HF : ce_fission s f.
  Hypothesis HD : ce_found s.
  Hypothesis HR : ce_reads bm s.
  Hypothesis HM : mt_valid (s_mts s).
  (** the UNR block is followed by delayed neutron data or by nothing *)
  Hypothesis HU : s_unr s <> None -> s_delayed s <> None \/ s_photon s = None.
  Let d := TData (zeros 16) (dzeros 16) (ce_nxs z a st s) (ce_locators s f) (ce_words s).

  Lemma own_unr t : ce_generateBlocks bm zaid d = Ok t -> opt_in (ct_unr t) un_v (s_unr s).
  Proof.
    intros T. destruct (ce_blocks_unr _ _ _ _ T) as (ntype & j23 & E1 & E2 & E3).
    assert (J : d_JXS bm d 23 = Ok (if given (s_unr s) then ce_off s 8 + 1 else 0)) by (apply (fetch_in bm _ 22); [|reflexivity]; reflexivity).
    assert (N : ntype = s_ntype s).
    { unfold ce_N in E1. assert (Q : d_NXS bm d 7 = Ok (s_ntype s)) by (apply (fetch_in bm _ 6); [|reflexivity]; reflexivity). rewrite Q in E1. cbn [bind] in E1. apply Ok_inj in E1. rewrite <- E1.
      apply u32_small. pose proof (sz_room _ HZ) as RM. unfold max_words in RM. unfold ce_words, ce_second in RM. pose proof (len_nonneg (s_particles s)). unfold s_ntype in *.
      destruct (s_particles s) as [|q r] eqn:Q'; [cbn; lia|]. rewrite <- Q' in *. repeat rewrite len_app in RM. rewrite !len_map in RM. unfold parts in RM. rewrite len_map in RM.
      repeat match type of RM with context [len ?l] => lazymatch goal with X : 0 <= len l |- _ => fail | _ => pose proof (len_nonneg l) end end. lia. }
    rewrite J in E2. apply Ok_inj in E2. subst j23 ntype.
    destruct (s_unr s) as [c|] eqn:U; cbn [given] in E3.
    2:{ cbn in E3. apply Ok_inj in E3. rewrite <- E3. exact Logic.I. }
    pose proof (r_order s HZ HD) as OO. destruct (Z.ltb_spec 0 (ce_off s 8 + 1)); [|lia]. cbn [opt_block] in E3.
    assert (V : content (tview d (ce_off s 8) (ce_off s 9)) (fst c)).
    { apply (r_view s d eq_refl HZ 8); [|reflexivity|reflexivity]. cbn [ce_pieces nth_error]. rewrite U. reflexivity. }
    assert (X : ce_block bm d (s_ntype s) 23 = Ok (ce_off s 8, ce_off s 9)).
    { destruct (b_unr bm s f d eq_refl eq_refl HZ HF HD c U) as [[_ X]|[DL X]]; [exact X|]. rewrite X. do 2 f_equal.
      destruct (HU ltac:(discriminate)) as [N|PH]; [contradiction|]. unfold ce_END, ce_off, ce_pieces. rewrite DL, PH. cbn [words_or firstn concat]. rewrite !app_nil_r. reflexivity. }
    unfold one in E3. rewrite X in E3. cbn [bind fst snd] in E3. destruct (un_make bm (tview d (ce_off s 8) (ce_off s 9))) as [o| |] eqn:M; try discriminate E3.
    cbn [bind] in E3. apply Ok_inj in E3. rewrite <- E3. cbn [opt_in]. rewrite (un_make_inv _ _ _ M). exact V.
  Qed.

  Lemma own_input t : ce_generateBlocks bm zaid d = Ok t -> ce_shows bm (more_ce s) t ->
    (exists en, esz_energies bm (ct_esz t) = Ok en /\ len en = s_nes s) ->
    (forall n, ct_dnu t = Some n -> exists o, nu_prompt n = NuTab o /\ nu_total n = None) ->
    ce_input bm (ce_own t) s.
  Proof.
    intros T [H1 H2 H3 H4 H5 H6 H7 H8 H9 H10 H11 H12 H13 H14 H15 H16 H17 H18 H19 H20 H21 H22] He Hn.
    pose proof (own_unr t T) as HUNR. pose proof (fd_nr _ HD) as Nr. destruct (all_frames_len s HZ Nr) as [AF AM].
    constructor; cbn [ce_own ci_esz ci_nu ci_mtr ci_lqr ci_sig ci_ang ci_dlw ci_unr].
    - split; [exact (proj1 (proj2 H1))|exact He].
    - cbn [more_ce s_nu] in H2. destruct (s_nu s), (ct_nu t); cbn in H2 |- *; try exact H2. exact (proj1 (proj2 H2)).
    - destruct H3 as (_ & C & N1 & N2). split; [exact C|]. split; [exact N1|]. pose proof (mt_lookup_content _ _ HM C) as L. destruct (ct_mtr t) as [v n m].
      cbn [ad_v ad_n ad_m] in *. subst n m. exact L.
    - exact (proj2 H4).
    - exact (proj2 H6).
    - exact (proj2 H7).
    - destruct H8 as (_ & C & N1 & N2 & N3). rewrite N2, N3. auto.
    - exact HUNR.
    - unfold delayed_in. cbn [ce_own ci_dnu ci_bdd ci_dned]. cbn [more_ce s_delayed] in H16, H17, H18. unfold group_says in H16, H17, H18. destruct (s_delayed s) as [b|]; cbn [option_map opt_says] in H16, H17, H18.
      + destruct (ct_dnu t) as [n|] eqn:En; [|contradiction]. destruct (ct_bdd t) as [x|]; [|contradiction]. destruct (ct_dned t) as [y|]; [|contradiction].
        destruct (Hn n eq_refl) as (o & Ho & Ht). destruct H16 as (_ & C1 & _), H17 as (_ & C2 & N2), H18 as (_ & C3 & N3). exists n, x, y. eauto 12.
      + destruct (ct_dnu t), (ct_bdd t), (ct_dned t); try contradiction. unfold none. auto.
    - unfold photon_in. cbn [ce_own ci_gpd ci_mtrp ci_sigp ci_andp ci_dlwp ci_yp]. cbn [more_ce s_photon] in H9, H10, H11, H12, H13, H14. unfold group_says in *.
      destruct (s_photon s) as [g|]; cbn [option_map opt_says] in H9, H10, H11, H12, H13, H14.
      + destruct (ct_gpd t) as [x|]; [|contradiction]. destruct (ct_mtrp t) as [m|]; [|contradiction]. destruct (ct_sigp t) as [sg|]; [|contradiction].
        destruct (ct_andp t) as [an|]; [|contradiction]. destruct (ct_dlwp t) as [dl|]; [|contradiction]. destruct (ct_yp t) as [y|]; [|contradiction].
        destruct H9 as (_ & C1 & _), H10 as (_ & C2 & N2), H11 as (_ & C3 & _), H12 as (_ & C4 & N4), H13 as (_ & C5 & N5), H14 as (_ & C6 & _).
        exists x, m, sg, an, dl, y. repeat (split; [assumption || reflexivity|]). assumption.
      + destruct (ct_gpd t), (ct_mtrp t), (ct_sigp t), (ct_andp t), (ct_dlwp t), (ct_yp t); try contradiction. unfold none. auto 7.
    - unfold secondary_in. cbn [ce_own ci_ptype ci_hpd ci_mtrh ci_sigh ci_andh ci_dlwh ci_yh]. unfold particle_blocks. cbn [more_ce s_particles s_ptype] in H19, H22.
      pose proof (Forall2_len _ _ _ H22) as L. rewrite map_length in L. pose proof (sz_particles _ HZ) as SP.
      destruct (s_particles s) as [|q0 r0] eqn:Q; cbn [map] in H19.
      + destruct (ct_ptype t); [contradiction|]. unfold none. auto 8.
      + destruct (ct_ptype t) as [p|]; [|contradiction]. rewrite <- Q in *. destruct H19 as (_ & Cp & Np). unfold s_ntype.
        exists p. do 6 eexists. repeat (split; [reflexivity|]). split; [exact Cp|]. split; [exact Np|]. rewrite !len_map. repeat (split; [unfold len; lia|]).
        intros k q Hq. assert (Hm : nth_error (map more_particle (s_particles s)) k = Some (more_particle q)) by (apply map_nth_error; exact Hq).
        destruct (Forall2_at_r _ _ _ _ _ H22 Hm) as (pp & Hp & Sh). do 6 eexists.
        repeat (split; [apply map_nth_error; exact Hp|]). destruct Sh as [P1 P2 P3 P4 P5 P6 P7].
        constructor.
        * exact (proj1 (proj2 P1)).
        * exact (proj1 (proj2 P2)).
        * exact (proj2 (proj2 P2)).
        * exact (proj1 (proj2 P4)).
        * exact (proj1 (proj2 P5)).
        * exact (proj1 (proj2 P6)).
        * rewrite Forall_forall in SP. destruct (SP q (nth_error_In _ _ Hq)) as (_ & Lq & _). destruct P6 as (_ & _ & P6). rewrite P6. rewrite firstn_all2 by (unfold len in Lq; lia). reflexivity.
        * exact (proj1 (proj2 P7)).
  Qed.
End Own.

(** * The constructor gives the same table *)

Lemma ce_reassembled bm z a st zaid c i s t :
  In c ["c"; "h"; "o"; "r"; "s"; "a"]%char ->
  ce_input bm i s -> ce_sizes s -> ce_found s -> ce_reads bm s -> mt_valid (s_mts s) ->
  (s_unr s <> None -> s_delayed s <> None \/ s_photon s = None) ->
  (forall n, ci_dnu i = Some n -> exists o, nu_prompt n = NuTab o /\ tf_LNU bm o = Ok 2) ->
  0 <= z -> 0 <= a -> 1000 * z + a < 2 ^ 32 -> ~ (st = 0 /\ z = 0 /\ a = 0) ->
  ce_of bm z a st (zaid ++ [c]) i = Ok t ->
  (ce_shows bm s t -> (exists en, esz_energies bm (ct_esz t) = Ok en /\ len en = s_nes s)
     /\ forall n, ct_dnu t = Some n -> exists o, nu_prompt n = NuTab o /\ nu_total n = None /\ tf_LNU bm o = Ok 2) ->
  ce_of bm z a st (zaid ++ [c]) (ce_own t) = Ok t.
Proof.
  intros Hc I HZ HD HR HM HU Hd Hz Ha Hza N T Hs. destruct (ce_data_ok bm z a st i s I HZ Hd Hz Ha Hza) as (f & F & E).
  unfold ce_of in T. rewrite E in T. cbn [bind] in T.
  assert (G : ce_generateBlocks bm (zaid ++ [c]) (TData (zeros 16) (dzeros 16) (ce_nxs z a st s) (ce_locators s f) (ce_words s)) = Ok t).
  { unfold ce_make in T. destruct (verifyType _ _) as [u| |] eqn:V; cbn [bind] in T; try discriminate T.
    rewrite (setSZA_kept bm _ _ st z a) in T; [exact T| | | | |].
    - repeat split; reflexivity.
    - exact (fetch_in bm (ce_nxs z a st s) 8 st eq_refl eq_refl).
    - exact (fetch_in bm (ce_nxs z a st s) 9 z eq_refl eq_refl).
    - exact (fetch_in bm (ce_nxs z a st s) 10 a eq_refl eq_refl).
    - tauto. }
  destruct (ce_blocks_ok bm (more_ce s) f z a st (zaid ++ [c]) (more_sizes _ HZ) (more_fission _ _ F) (more_found _ HD) (more_reads_all _ _ HR)) as (t' & T' & _ & _ & S').
  rewrite more_nxs, more_locators, more_words in T'. rewrite G in T'. apply Ok_inj in T'. subst t'.
  destruct (Hs (more_shows _ _ _ S')) as [Hen Hdn].
  assert (I' : ce_input bm (ce_own t) s).
  { apply (own_input bm s f z a st (zaid ++ [c]) HZ F HD HM HU t G S' Hen). intros n En. destruct (Hdn n En) as (o & O1 & O2 & _). eauto. }
  destruct (ce_data_ok bm z a st (ce_own t) s I' HZ) as (g & F' & E'); try assumption.
  { intros n En. destruct (Hdn n En) as (o & O1 & O2 & O3). eauto. }
  rewrite (fission_unique _ _ _ F' F) in E'. unfold ce_of. rewrite E'. cbn [bind]. exact T.
Qed.
