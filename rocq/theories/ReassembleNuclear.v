(** The blocks of a photonuclear table handed to the constructor again. *)
From Coq Require Import ZArith Bool List Lia Ascii.
From Coq Require Import ZifyBool ZifyNat.
From Verif Require Import Reassemble.
From Verif Require Export PhotonuclearValues.
Import ListNotations.
Open Scope Z_scope.

(** The types of the secondary particles and ESZU(), MTR(), ..., DLWH( i ) of a table (src/ACEtk/PhotonuclearTable.hpp) in the order of the constructor's
    arguments (src/ACEtk/PhotonuclearTable/src/ctor.hpp); without secondary particles the optional arguments are not given. *)
Definition pu_own (types : list Z) (t : puTable) : puIn :=
  let given {A} (l : list A) : option (list A) := match types with [] => None | _ => Some l end in
  PuIn (ut_eszu t) (ut_mtr t) (ut_lqr t) (ut_sig t) (given types) (given (map up_pxs (ut_particles t))) (given (map up_phn (ut_particles t)))
    (given (map up_mtrh (ut_particles t))) (given (map up_sigh (ut_particles t))) (given (map up_andh (ut_particles t))) (given (map up_dlwh (ut_particles t))).

Definition more_part (q : puQ) : puQ :=
  PuQ (uq_type q) (uq_n q) (uq_frames q) (more (fun v => v) (fun _ => True) (uq_pxs q)) (more (fun v => v) (fun _ => True) (uq_phn q))
    (more ad_v (fun o => mt_NTR o = uq_n q) (uq_mtrh q)) (more (@bl_v _) (fun _ => True) (uq_sigh q)) (more ab_v (fun _ => True) (uq_andh q))
    (more (fun o => bl_v (dh_block o)) (fun o => dh_frames o = map Some (firstn (Z.to_nat (uq_n q)) (uq_frames q))) (uq_dlwh q)).
Definition more_pu (s : puS) : puS :=
  PuS (us_nes s) (us_e s) (us_ntr s) (more ad_v (fun o => eu_NES o = us_nes s) (us_eszu s)) (more ad_v (fun o => mt_NTR o = us_ntr s) (us_mtr s))
    (more ad_v (fun o => mt_NTR o = us_ntr s) (us_lqr s)) (more (@bl_v _) (fun o => bl_n o = us_ntr s) (us_sig s)) (map more_part (us_parts s)).

Lemma more_uw q : uw_of (more_part q) = uw_of q. Proof. reflexivity. Qed.
Lemma more_u_rows : forall qs b, u_rows b (map more_part qs) = u_rows b qs.
Proof. induction qs as [|q qs IH]; intros b; [reflexivity|]. cbn [map u_rows]. rewrite IH. reflexivity. Qed.
Lemma more_u_apart : forall qs b, u_apart b qs -> u_apart b (map more_part qs).
Proof.
  induction qs as [|q qs IH]; intros b H; [exact I|]. destruct qs as [|q' qs]; [exact I|]. cbn [map] in *. destruct H as (H1 & H2 & H3). split; [exact H1|]. split; [exact H2|]. exact (IH _ H3).
Qed.
Lemma more_u_blocks s : us_blocks (more_pu s) = us_blocks s.
Proof. unfold us_blocks. cbn [more_pu us_parts]. rewrite map_map. reflexivity. Qed.
Lemma more_u_ntype s : us_ntype (more_pu s) = us_ntype s.
Proof. unfold us_ntype. cbn [more_pu us_parts]. apply len_map. Qed.
Lemma more_u_base s : us_base (more_pu s) = us_base s.
Proof. unfold us_base. rewrite more_u_ntype. reflexivity. Qed.
Lemma more_u_words s : us_words (more_pu s) = us_words s.
Proof. unfold us_words. rewrite more_u_blocks, more_u_base. cbn [more_pu us_parts]. rewrite more_u_rows. reflexivity. Qed.
Lemma more_u_jxs s : us_jxs (more_pu s) = us_jxs s.
Proof. unfold us_jxs. rewrite more_u_base. cbn [more_pu us_parts]. destruct (us_parts s); reflexivity. Qed.
Lemma more_u_nxs z a st s : us_nxs z a st (more_pu s) = us_nxs z a st s.
Proof. unfold us_nxs. rewrite more_u_words, more_u_ntype. reflexivity. Qed.
Lemma more_u_sizes s : pu_sizes s -> pu_sizes (more_pu s).
Proof. intros [H1 H2 H3 H4]. constructor; [rewrite more_u_words; exact H1|exact H2|exact H3|]. cbn [more_pu us_parts]. apply Forall_map. exact H4. Qed.

Lemma xs_make_inv bm v o : xs_make bm v = Ok o -> o = v.
Proof. unfold xs_make. intros H. inv_ok H. apply Ok_inj in H. congruence. Qed.
Lemma more_u_reads bm s : pu_reads bm s -> pu_reads bm (more_pu s).
Proof.
  intros [H1 H2 H3 H4 H5].
  assert (X : forall v n o, mt_make v n = Ok o -> ad_v o = v /\ mt_NTR o = n) by (intros v n o E; destruct (ad_make_inv _ _ _ _ E) as (? & ? & ?); auto).
  constructor.
  - apply more_reads; [|exact H1]. intros v o E. destruct (ad_make_inv _ _ _ _ E) as (? & ? & ?); auto.
  - apply more_reads; [|exact H2]. intros v o E. exact (X v _ o E).
  - apply more_reads; [|exact H3]. intros v o E. exact (X v _ o E).
  - apply more_reads; [|exact H4]. intros v o E. destruct (bl_make_inv _ _ _ _ _ _ _ E) as (? & ? & ?). auto.
  - cbn [more_pu us_parts]. apply Forall_map. eapply Forall_impl; [|exact H5]. intros q (R1 & R2 & R3 & R4 & R5 & R6).
    split; [|split; [|split; [|split; [|split]]]].
    + apply more_reads; [|exact R1]. intros v o E. split; [exact (xs_make_inv _ _ _ E)|exact Logic.I].
    + apply more_reads; [|exact R2]. intros v o E. split; [exact (xs_make_inv _ _ _ E)|exact Logic.I].
    + apply more_reads; [|exact R3]. intros v o E. exact (X v _ o E).
    + apply more_reads; [|exact R4]. intros v o E. destruct (bl_make_inv _ _ _ _ _ _ _ E) as (? & ? & ?). auto.
    + apply more_reads; [|exact R5]. intros v o E. destruct (ab_make_inv _ _ _ _ _ _ E). auto.
    + intros t T. apply more_reads; [|exact (R6 t T)]. intros v o E. destruct (dh_make_inv _ _ _ _ _ _ E) as (V & _ & F). destruct T as (_ & T1 & _).
      cbn [more_part uq_frames] in T1. rewrite T1 in F. split; [exact V|exact F].
Qed.

Definition own_objects (p : puPart) : puO := PuO (up_pxs p) (up_phn p) (up_mtrh p) (up_sigh p) (up_andh p) (up_dlwh p).
Lemma own_part_in bm p q : uq_fits q -> part_shows bm p (more_part q) -> part_in (own_objects p) q.
Proof.
  intros (_ & Hn & HL & _) [H1 H2 H3 _ H5 H6 H7]. cbn [more_part uq_pxs uq_phn uq_mtrh uq_sigh uq_andh uq_dlwh more snd] in *.
  constructor; cbn [own_objects uo_pxs uo_phn uo_mtrh uo_sigh uo_andh uo_dlwh].
  - exact (proj1 (proj2 H1)).
  - exact (proj1 (proj2 H2)).
  - exact (proj1 (proj2 H3)).
  - exact (proj2 (proj2 H3)).
  - exact (proj1 (proj2 H5)).
  - exact (proj1 (proj2 H6)).
  - exact (proj1 (proj2 H7)).
  - rewrite (proj2 (proj2 H7)). f_equal. rewrite <- HL. unfold len. rewrite Nat2Z.id. apply firstn_all.
Qed.

Lemma pu_own_input bm s t : pu_sizes s -> pu_shows bm (more_pu s) t -> (exists el, eu_elastic bm (ut_eszu t) = Ok el /\ (len el =? 0) = us_e s) ->
  pu_input bm (pu_own (map uq_type (us_parts s)) t) s.
Proof.
  intros HZ [H1 H2 H3 H4 _ H6] HE. cbn [more_pu us_eszu us_mtr us_lqr us_sig us_parts more snd] in *. constructor; cbn [pu_own ui_eszu ui_mtr ui_lqr ui_sig].
  - split; [apply H1|]. split; [apply H1|exact HE].
  - split; apply H2.
  - split; apply H3.
  - split; apply H4.
  - pose proof (uz_parts _ HZ) as F. unfold pu_second_in. destruct (us_parts s) as [|q qs]; [repeat split|]. cbn [map]. exists (map own_objects (ut_particles t)). split.
    + revert H6 F. change (more_part q :: map more_part qs) with (map more_part (q :: qs)). generalize (ut_particles t) (q :: qs). clear. intros ps qs. revert ps.
      induction qs as [|q qs IH]; intros ps H F; inversion H; subst; [constructor|]. inversion F; subst. cbn [map]. constructor; [eapply own_part_in; eassumption|apply IH; assumption].
    + cbn [pu_own ui_ptype ui_pxs ui_phn ui_mtrh ui_sigh ui_andh ui_dlwh]. rewrite !map_map. repeat split.
Qed.

Lemma pu_reassembled bm asrt esrt z a st zaid v :
  sort_contract asrt -> eqb_sort_contract esrt -> pu_valid esrt v -> pu_apart v -> pu_size v + 1 < max_words ->
  0 <= z -> 0 <= a -> 1000 * z + a < 2 ^ 32 -> ~ (st = 0 /\ z = 0 /\ a = 0) ->
  exists i t, pu_build bm asrt esrt v = Ok i /\ pu_of bm z a st (zaid ++ ["u"%char]) i = Ok t /\ pu_returns bm v t
    /\ pu_of bm z a st (zaid ++ ["u"%char]) (pu_own (map uv_type (u_parts v)) t) = Ok t.
Proof.
  intros Hs He V HA B Hz Ha Hza N.
  destruct (pu_from_values_full bm asrt esrt z a st (zaid ++ ["u"%char]) v Hs He V HA B Hz Ha Hza) as (i & s & E & D & (t & T & T1 & T2 & T3) & E1 & E2 & E3 & SZ & AP & RD & Ee & En & Et).
  assert (MK : pu_make bm (zaid ++ ["u"%char]) (TData (zeros 16) (dzeros 16) (us_nxs z a st s) (us_jxs s) (us_words s)) = Ok t).
  { unfold pu_make. rewrite verifyType_spec. cbn [existsb bind]. rewrite Ascii.eqb_refl. cbn [bind orb].
    rewrite (setSZA_kept bm _ _ st z a); [cbn [bind]; exact T| | | | |exact N].
    + split; [reflexivity|]. split; [reflexivity|]. split; [reflexivity|]. rewrite E2. unfold pu_jxs. destruct (eu_none (u_el v)); reflexivity.
    + exact (fetch_in bm (us_nxs z a st s) 8 st eq_refl eq_refl).
    + exact (fetch_in bm (us_nxs z a st s) 9 z eq_refl eq_refl).
    + exact (fetch_in bm (us_nxs z a st s) 10 a eq_refl eq_refl). }
  exists i, t. split; [exact E|]. split; [unfold pu_of; rewrite D; exact MK|]. split; [exact T3|].
  assert (AP' : u_apart (us_base (more_pu s)) (us_parts (more_pu s))) by (rewrite more_u_base; apply more_u_apart; exact AP).
  destruct (pu_blocks_ok bm (zaid ++ ["u"%char]) z a st (more_pu s) (more_u_sizes _ SZ) AP' (more_u_reads _ _ RD)) as (t' & T' & _ & _ & S').
  rewrite more_u_nxs, more_u_jxs, more_u_words, T in T'. apply Ok_inj in T'. subst t'.
  assert (HE : exists el, eu_elastic bm (ut_eszu t) = Ok el /\ (len el =? 0) = us_e s).
  { destruct (ut_eszu_ok _ _ _ T3) as (_ & _ & _ & X & _). eexists. split; [exact X|]. rewrite Ee. destruct (u_el v) as [[|x l]|]; reflexivity. }
  pose proof (pu_own_input bm s t SZ S' HE) as I. rewrite Et in I.
  unfold pu_of. rewrite (pu_data_ok bm z a st _ s I SZ Hz Ha Hza). exact MK.
Qed.
