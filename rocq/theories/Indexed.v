(** Objects read from arbitrary words: they have as many entries as they report, and every index is checked.  Lemmas for C42. *)
From Coq Require Import ZArith Bool List Lia.
From Coq Require Import ZifyBool ZifyNat.
From Verif Require Import Float Base ColumnData TabulatedData BlockWithLocators Angular AngularBlock DistributionData EnergyLaws EnergyAngle SimpleLaws EnergyDist MultiDist FrameBlock EnergyBlocks DlwBlock NuBlock ElectronBlocks AtomicBlocks.
Import ListNotations.
Open Scope Z_scope.

(** Every index (a std::size_t) from [lo] to [n] gives an entry; in Debug every other one throws std::out_of_range. *)
Definition checked {A} (bm : build) (lo n : Z) (get : Z -> outcome A) : Prop :=
  debug bm = true -> forall i, 0 <= i < 2 ^ 64 -> ~ lo <= i <= n -> get i = Throw OutOfRange.
Definition indexed {A} (bm : build) (lo n : Z) (get : Z -> outcome A) : Prop :=
  (forall i, 0 <= i < 2 ^ 64 -> lo <= i <= n -> exists x, get i = Ok x) /\ checked bm lo n get.

Lemma mapM_length {A B} (f : A -> outcome B) l r : mapM f l = Ok r -> length r = length l.
Proof.
  revert r; induction l as [|x l IH]; intros r H; cbn [mapM] in H; [injection H as <-; reflexivity|].
  destruct (f x) as [y| |]; [|discriminate H|discriminate H]. cbn [bind] in H. destruct (mapM f l) as [ys| |]; [|discriminate H|discriminate H]. cbn [bind] in H.
  injection H as <-. cbn [length]. f_equal. apply IH. reflexivity.
Qed.
Lemma seqZ_length a n : length (seqZ a n) = n.
Proof. revert a; induction n as [|n IH]; intros a; cbn [seqZ length]; [reflexivity|]. rewrite IH. reflexivity. Qed.
Lemma at_in {A} (l : list A) i : 1 <= i <= len l -> i < 2 ^ 64 -> exists x, at_ l i = Ok x.
Proof.
  intros H B. unfold at_. rewrite u64_small by lia. destruct (nth_error l (Z.to_nat (i - 1))) as [x|] eqn:E; [eauto|]. apply nth_error_None in E. unfold len in H. lia.
Qed.
Lemma verify_in lo n i : lo <= i <= n -> 0 <= i < 2 ^ 64 -> verifyIndex (u64 i) lo n = Ok tt.
Proof. intros H B. unfold verifyIndex. rewrite u64_small by lia. destruct (i <? lo) eqn:E1; [lia|]. destruct (n <? i) eqn:E2; [lia|]. reflexivity. Qed.
Lemma verify_out lo n i : ~ lo <= i <= n -> 0 <= i < 2 ^ 64 -> verifyIndex (u64 i) lo n = Throw OutOfRange.
Proof. intros H B. unfold verifyIndex. rewrite u64_small by lia. destruct (i <? lo) eqn:E1; [reflexivity|]. destruct (n <? i) eqn:E2; [reflexivity|]. lia. Qed.
Lemma checked_first {A} bm lo n (get : Z -> outcome A) rest : (forall i, get i = (_ <- check bm (verifyIndex (u64 i) lo n) ;; rest i)) -> checked bm lo n get.
Proof. intros E D i B H. rewrite E. unfold check. rewrite D, (verify_out lo n i H B). reflexivity. Qed.
Lemma indexed_at {A} bm n (get : Z -> outcome A) l : len l = n -> (forall i, get i = (_ <- check bm (verifyIndex (u64 i) 1 n) ;; at_ l i)) -> indexed bm 1 n get.
Proof.
  intros L E. split; [|apply (checked_first bm 1 n get _ E)]. intros i B H. rewrite E. destruct (at_in l i ltac:(lia) ltac:(lia)) as (x & X). exists x.
  unfold check. rewrite (verify_in 1 n i H B), X. destruct (debug bm); reflexivity.
Qed.
(** the same for the checks that read the number first, in Debug *)
Lemma indexed_read {A} bm n rn (get : Z -> outcome A) l : len l = n -> rn = Ok n ->
  (forall i, get i = (_ <- (if debug bm then k <- rn ;; verifyIndex (u64 i) 1 k else Ok tt) ;; at_ l i)) -> indexed bm 1 n get.
Proof. intros L R E. apply (indexed_at bm n get l L). intros i. rewrite E, R. reflexivity. Qed.
Lemma checked_read {A} bm n rn (get : Z -> outcome A) rest : rn = Ok n ->
  (forall i, get i = (_ <- (if debug bm then k <- rn ;; verifyIndex (u64 i) 1 k else Ok tt) ;; rest i)) -> checked bm 1 n get.
Proof. intros R E. apply (checked_first bm 1 n get rest). intros i. rewrite E, R. reflexivity. Qed.

Ltac inv H := let E := fresh "E" in
  match type of H with bind ?o _ = Ok _ => destruct o eqn:E; [|discriminate H|discriminate H]; cbn [bind] in H end.

Lemma mapM_count {B} (f : Z -> outcome B) a n r : 0 <= n -> mapM f (seqZ a (Z.to_nat n)) = Ok r -> len r = n.
Proof. intros N H. unfold len. rewrite (mapM_length _ _ _ H), seqZ_length. lia. Qed.
Lemma ixss_size_range bm v k n : ixss_size bm v k = Ok n -> 0 <= n < 2 ^ 64.
Proof. unfold ixss_size. intros H. inv H. injection H as <-. apply Z.mod_pos_bound. lia. Qed.
Lemma cd_N_range bm c n : cd_N bm c = Ok n -> 0 <= n < 2 ^ 64.
Proof. unfold cd_N. destruct (vempty _); intros H; [injection H as <-; lia|exact (ixss_size_range _ _ _ _ H)]. Qed.

(** ** Blocks with locators *)
Lemma bl_make_indexed {D} bm (gd : Z -> view -> outcome D) v data n locator o : 0 <= n < 2 ^ 64 -> bl_make bm gd v data n locator = Ok o ->
  bl_n o = n /\ bl_v o = v /\ indexed bm 1 n (bl_datum bm o) /\ checked bm 1 n (bl_LLOC bm o).
Proof.
  intros N H. unfold bl_make in H. inv H. inv H. apply Ok_inj in H. subst o. cbn [bl_n bl_v]. split; [reflexivity|]. split; [reflexivity|]. split.
  - apply (indexed_at bm n _ a0); [exact (mapM_count _ _ _ _ (proj1 N) E0)|]. reflexivity.
  - eapply checked_first. reflexivity.
Qed.

(** ** Angular distributions *)
Lemma an_make_indexed bm locb v o : an_make bm locb v = Ok o -> exists n, an_NE bm o = Ok n
  /\ indexed bm 1 n (an_datum bm o) /\ checked bm 1 n (an_incidentEnergy bm (an_values o)) /\ checked bm 1 n (an_LOCC bm (an_values o)).
Proof.
  intros H. unfold an_make in H. inv H. inv H. inv H. apply Ok_inj in H. subst a. exists a0. pose proof (cd_N_range _ _ _ E0) as N.
  unfold an_generateBlocks in E. inv E. inv E. inv E. inv E. inv E. apply Ok_inj in E. subst o. cbn [an_values] in *. rewrite E0 in E5. apply Ok_inj in E5. subst a4.
  split; [exact E0|]. split; [|split].
  - apply (indexed_read bm a0 _ _ a5 (mapM_count _ _ _ _ (proj1 N) E6) E0). reflexivity.
  - apply (checked_read bm a0 _ _ (fun i => cd_value bm a3 1 i) E0). reflexivity.
  - apply (checked_read bm a0 _ _ (fun i => x <- cd_value bm a3 2 i ;; trunc_to_int x) E0). reflexivity.
Qed.
Lemma ab_make_indexed bm v data nr zero o : 0 <= nr < 2 ^ 32 -> ab_make bm v data nr zero = Ok o ->
  let lo := if zero then 0 else 1 in
  ab_nr o = nr /\ indexed bm lo nr (ab_datum bm o) /\ checked bm lo nr (ab_LAND bm o) /\ checked bm lo nr (ab_isGiven bm o) /\ checked bm lo nr (ab_isFullyIsotropic bm o).
Proof.
  intros N H lo. unfold ab_make in H. inv H. inv H. apply Ok_inj in H. subst o. cbn [ab_nr].
  assert (C : checked bm lo nr (ab_LAND bm (AngularBlock v nr data a0 zero))).
  { eapply checked_first. unfold ab_LAND, ab_LAND_. cbn [ab_v ab_nr ab_zero]. reflexivity. }
  split; [reflexivity|]. split; [|split; [exact C|split; intros D i B H; unfold ab_isGiven, ab_isFullyIsotropic; rewrite (C D i B H); reflexivity]].
  assert (L : len a0 = nr + (if zero then 1 else 0)) by (refine (mapM_count _ _ _ _ _ E0); destruct zero; lia). split.
  - intros i B H. unfold ab_datum, check. cbn [ab_nr ab_zero ab_data]. fold lo. rewrite (verify_in lo nr i H B).
    destruct (at_in a0 (if zero then i + 1 else i)) as (x & X); [unfold lo in H; destruct zero; lia|unfold lo in H; destruct zero; lia|]. exists x. rewrite X. destruct (debug bm); reflexivity.
  - eapply checked_first. unfold ab_datum. cbn [ab_nr ab_zero ab_data]. fold lo. reflexivity.
Qed.

(** ** Distributions with locators (laws 4, 44, 61, 67 and what is inside them) *)
Lemma dd_make_indexed {D} bm (gd : double -> Z -> view -> outcome D) locb v o : dd_make bm gd locb v = Ok o -> exists n, dd_N bm o = Ok n
  /\ indexed bm 1 n (dd_datum bm o) /\ checked bm 1 n (dd_energy bm o) /\ checked bm 1 n (dd_locator bm o).
Proof.
  intros H. unfold dd_make in H. inv H. inv H. inv H. unfold dd_generateBlocks in H. do 8 inv H. apply Ok_inj in H. subst o.
  pose proof (cd_N_range _ _ _ E8) as N. exists a8. split; [exact E8|]. split; [|split].
  - apply (indexed_read bm a8 _ _ a9 (mapM_count _ _ _ _ (proj1 N) E9) E8). reflexivity.
  - apply (checked_read bm a8 _ _ (fun i => cd_value bm a7 1 i) E8). reflexivity.
  - intros Db i B X. unfold dd_locator, dd_LOCC. cbn [dd_values]. rewrite (checked_read bm a8 _ (fun i => dd_value bm a7 (cd_nc a7) i) (fun i => cd_value bm a7 (cd_nc a7) i) E8 ltac:(reflexivity) Db i B X). reflexivity.
Qed.
Lemma di_read_indexed {D} bm (o : distributionDataI D) n : di_N bm o = Ok n -> len (di_dists o) = n ->
  indexed bm 1 n (di_datum bm o) /\ (forall c, checked bm 1 n (di_value bm o c)) /\ checked bm 1 n (di_rel bm o).
Proof.
  intros E L. pose proof (cd_N_range _ _ _ E) as N. split; [|split].
  - apply (indexed_read bm n _ _ (di_dists o) L E). reflexivity.
  - intros c. apply (checked_read bm n _ _ (fun i => cd_value bm (di_values o) c i) E). reflexivity.
  - intros Db i B X. unfold di_rel, dd_relative, dd_LOCC.
    rewrite (checked_read bm n _ (fun i => dd_value bm (di_values o) (cd_nc (di_values o)) i) (fun i => cd_value bm (di_values o) (cd_nc (di_values o)) i) E ltac:(reflexivity) Db i B X). reflexivity.
Qed.
Lemma di_make_indexed {D} bm (gd : double -> Z -> view -> outcome D) locb v o : di_make bm gd locb v = Ok o -> exists n, di_N bm o = Ok n
  /\ indexed bm 1 n (di_datum bm o) /\ (forall c, checked bm 1 n (di_value bm o c)) /\ checked bm 1 n (di_rel bm o).
Proof.
  intros H. unfold di_make in H. do 2 inv H. unfold di_generateBlocks in H. do 6 inv H. apply Ok_inj in H. subst o.
  exists a5. split; [exact E5|]. apply di_read_indexed; [exact E5|]. exact (mapM_count _ _ _ _ (proj1 (cd_N_range _ _ _ E5)) E6).
Qed.
Lemma ea_read_indexed bm locb v o : ea_read bm locb v = Ok o -> exists n, di_N bm o = Ok n
  /\ indexed bm 1 n (di_datum bm o) /\ (forall c, checked bm 1 n (di_value bm o c)) /\ checked bm 1 n (di_rel bm o).
Proof.
  intros H. unfold ea_read in H. do 2 inv H. unfold ea_generateBlocks in H. do 4 inv H. apply Ok_inj in H. subst o.
  exists a3. split; [exact E3|]. apply di_read_indexed; [exact E3|]. exact (mapM_count _ _ _ _ (proj1 (cd_N_range _ _ _ E3)) E4).
Qed.

(** ** Equiprobable bins *)
Lemma mapM_each {A B} (f : A -> outcome B) l r x : mapM f l = Ok r -> In x l -> exists y, f x = Ok y.
Proof.
  revert r; induction l as [|a l IH]; intros r H I; [destruct I|]. cbn [mapM] in H. inv H. inv H. destruct I as [->|I]; [eauto|]. eapply IH; [reflexivity|exact I].
Qed.
Lemma seqZ_In a n x : a <= x < a + Z.of_nat n -> In x (seqZ a n).
Proof. revert a; induction n as [|n IH]; intros a H; [lia|]. cbn [seqZ In]. destruct (Z.eq_dec a x); [left; assumption|right]. apply IH. lia. Qed.
Lemma ixss_size_int bm v k n : ixss_size bm v k = Ok n -> exists z, - 2 ^ 31 <= z < 2 ^ 31 /\ n = u64 z.
Proof.
  unfold ixss_size, ixss. intros H. inv H. injection H as <-. exists a. split; [|reflexivity]. inv E. unfold to_int in E. destruct (sf_round a0) as [z|]; [|discriminate E].
  destruct (in_int z) eqn:I; [|discriminate E]. injection E as <-. unfold in_int in I. lia.
Qed.
Lemma deref_range b i x : deref b i = Ok x -> 0 <= i < len b.
Proof.
  unfold deref. destruct (Z.leb_spec 0 i); [|discriminate]. destruct (nth_error b (Z.to_nat i)) eqn:E; [|discriminate]. intros _.
  assert (Z.to_nat i < length b)%nat by (apply nth_error_Some; congruence). unfold len. lia.
Qed.
Lemma eq_make_indexed bm v o : len (buf v) < 2 ^ 62 -> eq_make bm v = Ok o -> exists n, eq_NE bm o = Ok n
  /\ indexed bm 1 n (eq_distribution bm o) /\ checked bm 1 n (eq_incidentEnergy bm o).
Proof.
  intros B H. unfold eq_make in H. do 4 inv H. unfold eq_generateBlocks in H. rewrite E in H. cbn [bind] in H. rewrite E0 in H. cbn [bind] in H. do 3 inv H. apply Ok_inj in H. subst o.
  set (incident := adv (vbeg v) (2 * a) + 1) in *. set (bins := adv incident a0 + 1) in *.
  unfold cd_make in E4. do 2 inv E4. apply Ok_inj in E4. subst a4.
  destruct (ixss_size_int _ _ _ _ E) as (z & Hz & Ea). destruct (ixss_size_int _ _ _ _ E0) as (z0 & Hz0 & Ea0).
  assert (R : forall x, xss bm v (1 + 2 * a + 1) = Ok x -> deref (buf v) incident = Ok x).
  { intros x X. unfold xss in X. destruct (debug bm); [inv X|cbn [bind] in X]; rewrite <- X; f_equal; unfold incident, adv; rewrite Ea; unfold u64, s64; Z.div_mod_to_equations; lia. }
  assert (G : bins = incident + z0 + 1) by (unfold bins, adv; rewrite Ea0; unfold u64, s64; Z.div_mod_to_equations; lia).
  assert (NE : cd_N bm (ColumnData (sub v incident bins) 1) = Ok a0).
  { unfold cd_N. cbn [cd_v]. unfold vempty. cbn [vbeg vend sub]. destruct (Z.eqb_spec incident bins) as [Em|Em].
    - exfalso. assert (z0 = -1) by lia. subst z0. change (u64 (-1)) with (2 ^ 64 - 1) in Ea0. rewrite Ea0 in E5.
      assert (CN : cd_N bm (ColumnData (sub v incident bins) 1) = Ok 0) by (unfold cd_N; cbn [cd_v]; unfold vempty; cbn [vbeg vend sub]; rewrite Em, Z.eqb_refl; reflexivity).
      assert (X : forall i, 1 <= i < 2 ^ 62 + 2 -> exists x, deref (buf v) (incident + i) = Ok x).
      { intros i Hi. assert (I : In i (seqZ 1 (Z.to_nat (2 ^ 64 - 1)))) by (apply seqZ_In; rewrite Z2Nat.id by lia; lia). destruct (mapM_each _ _ _ i E5 I) as (y & Y). inv Y. unfold eq_energy_, eq_verify, cd_value in E4. rewrite CN in E4. cbn [bind] in E4.
        destruct (debug bm) eqn:Db.
        - rewrite verify_out in E4 by lia. discriminate E4.
        - cbn [bind] in E4. unfold xss in E4. rewrite Db in E4. cbn [bind sub buf vbeg cd_v] in E4. exists a4. rewrite <- E4. f_equal. rewrite u64_small by lia. rewrite s64_small by lia. lia. }
      destruct (X 1 ltac:(lia)) as (x1 & X1). destruct (X (2 ^ 62 + 1) ltac:(lia)) as (x2 & X2). apply deref_range in X1, X2. lia.
    - clear E5. unfold ixss_size, ixss in E0 |- *. destruct (xss bm v (1 + 2 * a + 1)) as [x| |] eqn:Ex; [|discriminate E0|discriminate E0].
      replace (xss bm (sub v incident bins) 1) with (Ok x); [exact E0|]. symmetry. unfold xss. cbn [sub buf vbeg vend]. change (s64 (u64 1 - 1)) with 0. rewrite Z.add_0_r, (R x eq_refl).
      destruct (debug bm); [|reflexivity]. rewrite verify_in; [reflexivity| |lia]. unfold vlen. cbn [vbeg vend sub]. rewrite G. unfold u64. Z.div_mod_to_equations. lia. }
  pose proof (ixss_size_range _ _ _ _ E0) as N. exists a0. split; [exact NE|]. split.
  - apply (indexed_read bm a0 _ _ a5 (mapM_count _ _ _ _ (proj1 N) E5) NE). reflexivity.
  - apply (checked_read bm a0 _ _ (fun i => cd_value bm (ColumnData (sub v incident bins) 1) 1 i) NE). reflexivity.
Qed.

(** ** Multiple distributions *)
Definition entry_shape (r : tabulatedData * list ed_obj) : Prop := (exists o, snd r = [o]) \/ exists o o', snd r = [OAngleEnergy o; o'].
Lemma mu_loop_shape bm locb v fuel : forall locator rs, mu_loop bm locb v fuel locator = Ok rs -> Forall entry_shape rs.
Proof.
  induction fuel as [|fuel IH]; intros locator rs H; cbn [mu_loop] in H; [discriminate H|].
  inv H. inv H. inv H. cbv zeta in H. inv H. inv H. inv H. inv H. inv H. apply Ok_inj in H. subst rs. constructor.
  - unfold entry_shape. cbn [snd]. unfold mu_read in E5. inv E5. destruct (Z.eqb_spec a0 67) as [->|].
    + inv E5. apply Ok_inj in E5. subst a5. unfold ed_read in E7. inv E7. apply Ok_inj in E7. subst a7. right. eauto.
    + apply Ok_inj in E5. subst a5. left. eauto.
  - destruct (a =? 0); [apply Ok_inj in E6; subst a6; constructor|]. exact (IH _ _ E6).
Qed.
Definition is_67 (o : ed_obj) : bool := match o with OAngleEnergy _ => true | _ => false end.
Lemma shapes_len rs : Forall entry_shape rs -> Forall (fun o => is_67 o = false) (concat (map snd rs)) -> len (concat (map snd rs)) = len rs.
Proof.
  induction 1 as [|r rs S _ IH]; intros F; [reflexivity|]. cbn [map concat] in *. apply Forall_app in F as [F1 F2]. rewrite len_app, (IH F2), len_cons.
  destruct S as [(o & ->)|(o & o' & S)]; [rewrite len_cons; change (len (@nil ed_obj)) with 0; lia|]. rewrite S in F1. inversion F1 as [|? ? X]. discriminate X.
Qed.
Lemma mu_make_indexed bm locb v m : mu_make bm locb v = Ok m -> let n := mu_numberDistributions m in
  indexed bm 1 n (mu_distribution bm m) /\ checked bm 1 n (mu_probability bm m)
  /\ (Forall (fun o => is_67 o = false) (mu_dists m) -> indexed bm 1 n (mu_probability bm m)).
Proof.
  intros H n. unfold mu_make in H. inv H. apply Ok_inj in H. subst m. split; [apply (indexed_at bm n _ (concat (map snd a)) eq_refl); reflexivity|].
  split; [eapply checked_first; reflexivity|]. intros F. apply (indexed_at bm n _ (map fst a)); [|reflexivity].
  unfold n, mu_numberDistributions. cbn [mu_dists] in *. rewrite (shapes_len a (mu_loop_shape _ _ _ _ _ _ E) F), len_map. reflexivity.
Qed.

(** ** Frames, energy distribution blocks, precursors, probability tables *)
Lemma ty_generate_indexed bm v n o : 0 <= n -> ty_generateBlocks bm v n = Ok o -> ty_NTR o = n /\ len (ty_frames o) = n /\ indexed bm 1 n (ty_frame bm o) /\ indexed bm 1 n (ty_mult bm o).
Proof.
  intros N H. unfold ty_generateBlocks in H. inv H. apply Ok_inj in H. subst o. pose proof (mapM_count _ _ _ _ N E) as L. split; [reflexivity|]. split; [cbn [ty_frames]; rewrite len_map; exact L|]. split.
  - apply (indexed_at bm n _ (map fst a)); [rewrite len_map; exact L|reflexivity].
  - apply (indexed_at bm n _ (map snd a)); [rewrite len_map; exact L|reflexivity].
Qed.
Lemma ty_make_indexed bm v n o : 0 <= n -> ty_make bm v n = Ok o -> ty_NTR o = n /\ len (ty_frames o) = n /\ indexed bm 1 n (ty_frame bm o) /\ indexed bm 1 n (ty_mult bm o).
Proof. intros N H. unfold ty_make in H. inv H. exact (ty_generate_indexed bm v n o N H). Qed.
Lemma len_firstn_ge {A} (l : list A) n : 0 <= n -> n <= len l -> len (firstn (Z.to_nat n) l) = n.
Proof. intros N H. unfold len in *. rewrite firstn_length. lia. Qed.
Lemma dl_make_indexed bm v data t nr o : 0 <= nr -> dl_make bm v data t nr = Ok o ->
  dl_NR o = nr /\ indexed bm 1 nr (dl_distribution bm o) /\ indexed bm 1 nr (dl_multiplicity bm o) /\ indexed bm 1 nr (dl_frame bm o) /\ checked bm 1 nr (dl_LDLW bm o).
Proof.
  intros N H. unfold dl_make in H. inv H. unfold dl_generateBlocks in H. inv H. destruct (Z.ltb_spec (len (ty_frames t)) nr) as [|G]; [discriminate H|].
  apply Ok_inj in H. subst o. pose proof (mapM_count _ _ _ _ N E0) as L. split; [reflexivity|]. split; [|split; [|split]].
  - apply (indexed_at bm nr _ (map fst a0)); [rewrite len_map; exact L|reflexivity].
  - apply (indexed_at bm nr _ (map snd a0)); [rewrite len_map; exact L|reflexivity].
  - apply (indexed_at bm nr _ (firstn (Z.to_nat nr) (ty_frames t))); [apply len_firstn_ge; assumption|reflexivity].
  - eapply checked_first. reflexivity.
Qed.
Lemma dh_make_indexed bm v data n t o : 0 <= n < 2 ^ 64 -> dh_make bm v data n t = Ok o ->
  dh_NR o = n /\ indexed bm 1 n (dh_distribution bm o) /\ indexed bm 1 n (dh_frame bm o) /\ checked bm 1 n (dh_LDLW bm o).
Proof.
  intros N H. unfold dh_make in H. inv H. inv H. apply Ok_inj in H. subst o. destruct (bl_make_indexed _ _ _ _ _ _ _ N E) as (B1 & _ & B2 & B3).
  unfold dh_NR, dh_distribution, dh_LDLW. cbn [dh_block]. split; [exact B1|]. split; [exact B2|]. split; [|exact B3].
  apply (indexed_at bm n _ a0); [|intros i; unfold dh_frame, dh_NR; cbn [dh_block dh_frames]; rewrite B1; reflexivity].
  unfold dh_generateFrames in E0. destruct t as [t|].
  - destruct (Z.ltb_spec (len (ty_frames t)) n) as [|G]; [discriminate E0|]. apply Ok_inj in E0. subst a0. rewrite len_map. apply len_firstn_ge; lia.
  - apply Ok_inj in E0. subst a0. unfold len. rewrite repeat_length. lia.
Qed.
Lemma bd_loop_len bm v n : forall left locator index ds, bd_loop bm v left locator index n = Ok ds -> length ds = n.
Proof.
  induction n as [|n IH]; intros left locator index ds H; cbn [bd_loop] in H; [apply Ok_inj in H; subst ds; reflexivity|].
  inv H. inv H. cbv zeta in H. inv H. inv H. apply Ok_inj in H. subst ds. cbn [length]. f_equal. exact (IH _ _ _ _ E2).
Qed.
Lemma bd_make_indexed bm v n o : 0 <= n -> bd_make bm v n = Ok o -> bd_NPCR o = n /\ indexed bm 1 n (bd_precursorGroupData bm o).
Proof.
  intros N H. unfold bd_make, bd_generateBlocks in H. inv H. apply Ok_inj in H. subst o. split; [reflexivity|]. apply (indexed_at bm n _ a); [|reflexivity].
  unfold len. rewrite (bd_loop_len _ _ _ _ _ _ _ E). lia.
Qed.
Lemma un_loop_len bm v m n : forall left index ts, un_loop bm v m left index n = Ok ts -> length ts = n.
Proof.
  induction n as [|n IH]; intros left index ts H; cbn [un_loop] in H; [apply Ok_inj in H; subst ts; reflexivity|].
  cbv zeta in H. inv H. inv H. inv H. apply Ok_inj in H. subst ts. cbn [length]. f_equal. exact (IH _ _ _ E1).
Qed.
Lemma un_make_indexed bm v o : un_make bm v = Ok o -> exists n, un_N bm v = Ok n /\ un_v o = v /\ indexed bm 1 n (un_probabilityTable bm o).
Proof.
  intros H. unfold un_make, un_generateBlocks in H. inv H. inv H. inv H. apply Ok_inj in H. subst o. exists a0. split; [reflexivity|]. split; [reflexivity|].
  apply (indexed_read bm a0 (un_N bm v) _ a1); [|exact E0|reflexivity]. unfold len. rewrite (un_loop_len _ _ _ _ _ _ _ E1).
  unfold un_N in E0. inv E0. apply Ok_inj in E0. subst a0. pose proof (Z.mod_pos_bound a2 (2 ^ 32) ltac:(lia)). unfold u32. lia.
Qed.

(** ** Electron data *)
Lemma eb_make_indexed bm v n o : 0 <= n < 2 ^ 32 -> eb_make bm v n = Ok o ->
  eb_N o = n /\ indexed bm 1 n (eb_datum bm o) /\ checked bm 1 n (eb_energy bm o) /\ checked bm 1 n (eb_length bm o) /\ checked bm 1 n (eb_LLOC bm o).
Proof.
  intros N H. unfold eb_make, eb_generateBlocks in H. cbv zeta in H. inv H. inv H. apply Ok_inj in H. subst o. unfold eb_N, eb_datum, eb_energy, eb_length, eb_LLOC, eb_energy_, eb_length_, eb_LLOC_, eb_verify. cbn [eb_n eb_info eb_data].
  rewrite (u32_small n) in * by lia. split; [reflexivity|]. split; [|split; [|split]]; try (eapply checked_first; reflexivity).
  apply (indexed_at bm n _ a0); [exact (mapM_count _ _ _ _ (proj1 N) E0)|reflexivity].
Qed.
Lemma ez_checked bm o : checked bm 1 (ez_NSSH o) (ez_electroionisation bm o).
Proof. eapply checked_first. reflexivity. Qed.
Lemma sp_checked bm o : checked bm 1 (sp_NSSH o) (sp_photoelectric bm o).
Proof. eapply checked_first. reflexivity. Qed.
