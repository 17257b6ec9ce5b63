(** The objects of the ownership model are those of the constructors: [ace] makes of a range of words what the
    constructor of the class, as modelled for the other properties, makes of it. *)
From Coq Require Import ZArith Bool List Lia Arith Ascii.
From Verif Require Import Float Base ColumnData TabulatedData BlockWithLocators Angular AngularBlock DistributionData EnergyLaws EnergyAngle SimpleLaws MultiDist FrameBlock EnergyBlocks
  DlwBlock ReactionNumbers NuBlock ElectronBlocks AtomicBlocks TableData DosimetryTable SZA ContinuousTable ThermalBlocks ThermalTable PhotoatomicTable PhotonuclearTable.
From Verif Require Import OwnershipAce Ownership OwnershipSpec.
Import ListNotations.
Open Scope Z_scope.

(** The whole of the words of an object *)
Definition range (d : list double) : view := View d 0 (len d).

(** The ownership model makes an object of the kind [p] with the parts [t] of the words [d]. *)
Definition makes (bm : build) (p : fields) (d : list double) (t : subblocks) : Prop := built (C := ace bm) p d None = Ok ((p, d, t), None).
Lemma throw_ok b e : throw_if b e = Ok tt -> b = false. Proof. destruct b; cbn; [discriminate|reflexivity]. Qed.
Ltac down H := cbv zeta in H; repeat (match type of H with bind _ _ = Ok _ => apply bind_ok in H; destruct H as (? & ? & H); cbv zeta in H end).
Ltac same := unfold makes, built; cbn [bind ace gen on_construct ace_check ace_gen option_map as_].
Lemma laws_made bm d :
  (forall o, td_make bm (range d) = Ok o -> makes bm FTabulated d (STabulated o))
  /\ (forall o, ev_make bm (range d) = Ok o -> makes bm FEvaporation d (SEvaporation o))
  /\ (forall o, ge_make bm (range d) = Ok o -> makes bm FGeneralEvaporation d (SGeneralEvaporation o))
  /\ (forall o, wa_make bm (range d) = Ok o -> makes bm FWatt d (SWatt o))
  /\ (forall o, tf_make bm (range d) = Ok o -> makes bm FFissionMultiplicity d (SPrefixed o))
  /\ (forall o, ts_make bm (range d) = Ok o -> makes bm FParticleMultiplicity d (SPrefixed o))
  /\ (forall o, SimpleLaws.eq_make bm (range d) = Ok o -> makes bm FEquiprobable d (SEquiprobable o))
  /\ (forall locb o, an_make bm locb (range d) = Ok o -> makes bm (FAngular locb) d (SAngular o))
  /\ (forall locb o, og_make bm locb (range d) = Ok o -> makes bm (FOutgoing locb) d (SOutgoing o))
  /\ (forall locb o, aed_make bm locb (range d) = Ok o -> makes bm (FAngleEnergy locb) d (SAngleEnergy o))
  /\ (forall locb o, ead_make bm locb (range d) = Ok o -> makes bm (FEnergyAngle locb) d (SEnergyAngle o))
  /\ (forall locb o, mu_make bm locb (range d) = Ok o -> makes bm (FMulti locb) d (SMulti o))
  /\ (forall number o, dp_make bm (range d) number = Ok o -> makes bm (FPrecursor number) d (SPrecursor o))
  /\ (forall npcr o, bd_make bm (range d) npcr = Ok o -> makes bm (FPrecursors npcr) d (SPrecursors o))
  /\ (forall o, nu_make bm (range d) = Ok o -> makes bm FNu d (SNu o))
  /\ (forall o, un_make bm (range d) = Ok o -> makes bm FUnr d (SUnr o))
  /\ (forall n o, ty_make bm (range d) n = Ok o -> makes bm (FTyr n) d (STyr o))
  /\ (forall n o, eb_make bm (range d) n = Ok o -> makes bm (FElectron n) d (SElectron o)).
Proof.
  repeat split; intros; same; fold (range d);
  match goal with H : _ = Ok ?o |- _ => 
    unfold td_make, ev_make, ge_make, wa_make, SimpleLaws.eq_make, og_make, aed_make, ead_make, dd_make, bd_make, nu_make, un_make, ty_make, eb_make in H; 
    try (rewrite H; reflexivity); down H; try (rewrite H; reflexivity) end.
  all: try (unfold an_make in *; match goal with H : _ = Ok _ |- _ => down H end).
  all: try (match goal with H : Ok _ = Ok _ |- _ => injection H as <- end; match goal with H : _ = Ok _ |- _ => rewrite H; reflexivity end).
Qed.
Lemma blocks_made bm d n :
  (forall zero o, ab_make bm (range d) (n + (if zero : bool then 1 else 0)) n zero = Ok o -> makes bm (FAnd n zero) d (SAnd (ab_data o)))
  /\ (forall o, bl_make bm (sigd_gd bm) (range d) n n true = Ok o -> makes bm (FSigd n) d (SSigd (bl_data o)))
  /\ (forall ntr w t o data, ty_make bm (range w) ntr = Ok t -> dl_make bm (range d) data t n = Ok o ->
        built (C := ace bm) (FDlw n) d (Some (FTyr ntr, w)) = Ok ((FDlw n, d, SDlw o), Some (FTyr ntr, w, STyr t)))
  /\ (forall o, dh_make bm (range d) n n None = Ok o -> makes bm (FDlwh n) d (SDlwh (bl_data (dh_block o)) (dh_frames o)))
  /\ (forall ntr w t o, ty_make bm (range w) ntr = Ok t -> dh_make bm (range d) n n (Some t) = Ok o ->
        built (C := ace bm) (FDlwh n) d (Some (FTyr ntr, w)) = Ok ((FDlwh n, d, SDlwh (bl_data (dh_block o)) (dh_frames o)), Some (FTyr ntr, w, STyr t))).
Proof.
  repeat split.
  - intros zero o H. same. fold (range d). unfold ab_make in H. down H. injection H as <-. replace (vbeg (range d) + n + (if zero then 1 else 0)) with (n + (if zero then 1 else 0)) by (cbn; lia). rewrite H1. reflexivity.
  - intros o H. same. fold (range d). unfold bl_make in H. down H. injection H as <-. change (vbeg (range d) + n) with n. rewrite H1. reflexivity.
  - intros ntr w t o data T H. unfold ty_make in T. down T. unfold built. cbn [bind ace gen on_construct ace_check ace_gen option_map as_ snd tyr_of]. fold (range w). fold (range d).
    rewrite T. cbn [bind as_ option_map snd tyr_of]. unfold dl_make in H. down H. rewrite H. reflexivity.
  - intros o H. same. fold (range d). unfold dh_make, bl_make in H. down H. injection H as <-. down H0. injection H0 as <-. change (vbeg (range d) + n) with n. rewrite H2. cbn [bind tyr_of]. rewrite H1. reflexivity.
  - intros ntr w t o T H. unfold ty_make in T. down T. unfold built. cbn [bind ace gen on_construct ace_check ace_gen option_map as_ snd tyr_of]. fold (range w). fold (range d).
    rewrite T. cbn [bind as_ option_map snd tyr_of]. unfold dh_make, bl_make in H. down H. injection H as <-. down H1. injection H1 as <-. change (vbeg (range d) + n) with n. rewrite H3. cbn [bind]. rewrite H2. reflexivity.
Qed.
Lemma setSZA_apart bm zaid iz aw nxs jxs x d : setSZA bm zaid (TData iz aw nxs jxs x) = Ok d ->
  setSZA bm zaid (TData iz aw nxs jxs []) = Ok (TData (d_iz d) (d_aw d) (d_nxs d) (d_jxs d) []) /\ d_xss d = x.
Proof.
  unfold setSZA, d_NXS. cbn [d_iz d_aw d_nxs d_jxs d_xss]. intros E.
  apply bind_ok in E as (n9 & E9 & E). apply bind_ok in E as (n10 & E10 & E). apply bind_ok in E as (n11 & E11 & E).
  rewrite E9. cbn [bind]. rewrite E10. cbn [bind]. rewrite E11. cbn [bind].
  destruct ((n9 =? 0) && (n10 =? 0) && (n11 =? 0)).
  2:{ injection E as <-. split; reflexivity. }
  apply bind_ok in E as (za & En & E). apply bind_ok in E as ([[s z] a] & Ed & E).
  apply bind_ok in E as (l1 & S1 & E). apply bind_ok in E as (l2 & S2 & E). apply bind_ok in E as (l3 & S3 & E). injection E as <-.
  rewrite En. cbn [bind]. rewrite Ed. cbn [bind]. rewrite S1. cbn [bind]. rewrite S2. cbn [bind]. rewrite S3. cbn. split; reflexivity.
Qed.
Lemma tables_made bm zaid iz aw nxs jxs d :
  let t := TData iz aw nxs jxs d in
  (forall o, th_make bm zaid t = Ok o -> makes bm (FTable Thermal zaid iz aw nxs jxs) d (SThermal o))
  /\ (forall o, pa_make bm zaid t = Ok o -> makes bm (FTable Photoatomic zaid iz aw nxs jxs) d (SPhotoatomic o))
  /\ (forall o, dt_make bm zaid t = Ok o -> makes bm (FTable Dosimetry zaid iz aw nxs jxs) d (SDosimetry o))
  /\ (forall o, ce_make bm zaid t = Ok o -> exists t', setSZA bm zaid t = Ok t' /\
        built (C := ace bm) (FTable Continuous zaid iz aw nxs jxs) d None
          = Ok ((FTable Continuous zaid (d_iz t') (d_aw t') (d_nxs t') (d_jxs t'), d, SContinuous o), None))
  /\ (forall o, pu_make bm zaid t = Ok o -> exists t', setSZA bm zaid t = Ok t' /\
        built (C := ace bm) (FTable Photonuclear zaid iz aw nxs jxs) d None
          = Ok ((FTable Photonuclear zaid (d_iz t') (d_aw t') (d_nxs t') (d_jxs t'), d, SPhotonuclear o), None)).
Proof.
  intros t. unfold t. repeat split.
  - intros o H. unfold makes, built. cbn [bind ace gen on_construct ace_check]. pose proof H as H0. unfold th_make in H0. apply bind_ok in H0 as ([] & V & _). rewrite V. cbn [bind ace_gen option_map buf]. rewrite H. reflexivity.
  - intros o H. unfold makes, built. cbn [bind ace gen on_construct ace_check]. pose proof H as H0. unfold pa_make in H0. apply bind_ok in H0 as ([] & V & _). rewrite V. cbn [bind ace_gen option_map buf]. rewrite H. reflexivity.
  - intros o H. unfold makes, built. cbn [bind ace gen on_construct ace_check]. pose proof H as H0. unfold dt_make in H0. apply bind_ok in H0 as ([] & V & _). rewrite V. cbn [bind ace_gen option_map buf]. rewrite H. reflexivity.
  - intros o H. unfold ce_make in H. apply bind_ok in H as ([] & V & H). apply bind_ok in H as (t' & S & H). exists t'. split; [exact S|].
    destruct (setSZA_apart _ _ _ _ _ _ _ _ S) as (S' & X). unfold built. cbn [bind ace gen on_construct ace_check]. unfold ace_sza. rewrite V. cbn [bind]. rewrite S'. cbn [bind d_iz d_aw d_nxs d_jxs ace_gen option_map buf].
    replace (TData (d_iz t') (d_aw t') (d_nxs t') (d_jxs t') d) with t' by (rewrite <- X; destruct t'; reflexivity). rewrite H. reflexivity.
  - intros o H. unfold pu_make in H. apply bind_ok in H as ([] & V & H). apply bind_ok in H as (t' & S & H). exists t'. split; [exact S|].
    destruct (setSZA_apart _ _ _ _ _ _ _ _ S) as (S' & X). unfold built. cbn [bind ace gen on_construct ace_check]. unfold ace_sza. rewrite V. cbn [bind]. rewrite S'. cbn [bind d_iz d_aw d_nxs d_jxs ace_gen option_map buf].
    replace (TData (d_iz t') (d_aw t') (d_nxs t') (d_jxs t') d) with t' by (rewrite <- X; destruct t'; reflexivity). rewrite H. reflexivity.
Qed.
