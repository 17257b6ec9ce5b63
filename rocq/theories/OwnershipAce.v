(** The blocks and tables of ACEtk as a class of the ownership model: every kind of block with sub-blocks, TYR
    (which DLW and DLWH hold), and the tables. *)
From Coq Require Import ZArith Bool List Lia Arith Ascii.
From Verif Require Import Float Base ColumnData TabulatedData BlockWithLocators Angular AngularBlock DistributionData EnergyLaws EnergyAngle SimpleLaws MultiDist FrameBlock EnergyBlocks
  DlwBlock ReactionNumbers NuBlock ElectronBlocks AtomicBlocks TableData DosimetryTable SZA ContinuousTable ThermalBlocks ThermalTable PhotoatomicTable PhotonuclearTable.
From Verif Require Import Ownership OwnershipSpec.
Import ListNotations.
Open Scope Z_scope.

(** The plain fields of each kind.  The data of a block with locators are taken to begin right after the
    locators, as in an owner (the constructors from iterators accept another place). *)
Inductive fields :=
| FTabulated | FEvaporation | FGeneralEvaporation | FWatt | FFissionMultiplicity | FParticleMultiplicity | FEquiprobable
| FAngular (locb : Z) | FOutgoing (locb : Z) | FAngleEnergy (locb : Z) | FEnergyAngle (locb : Z) | FMulti (locb : Z)
| FPrecursor (number : Z) | FPrecursors (npcr : Z) | FNu | FUnr
| FTyr (ntr : Z) | FAnd (nr : Z) (zero : bool) | FDlw (nr : Z) | FDlwh (n : Z) | FSigd (n : Z) | FElectron (n : Z)
| FTable (c : tclass) (zaid : list ascii) (iz : list Z) (aw : list double) (nxs jxs : list Z)
with tclass := Continuous | Thermal | Photoatomic | Dosimetry | Photonuclear.
Inductive subblocks :=
| STabulated (o : tabulatedData) | SEvaporation (o : evaporation) | SGeneralEvaporation (o : generalEvaporation) | SWatt (o : watt)
| SPrefixed (o : prefixedTabulated) | SEquiprobable (o : equi) | SAngular (o : angularData) | SOutgoing (o : distributionData tq_obj)
| SAngleEnergy (o : distributionData ae_obj) | SEnergyAngle (o : distributionData ea_obj) | SMulti (o : multi)
| SPrecursor (o : precursorData) | SPrecursors (o : bdd) | SNu (o : nu) | SUnr (o : unr)
| STyr (o : tyr) | SAnd (o : list (adist angularData)) | SDlw (o : dlw) | SDlwh (o : list en_obj) (frames : list (option frame)) | SSigd (o : list tabulatedData) | SElectron (o : electronBlock)
| SContinuous (o : ceTable) | SThermal (o : thTable) | SPhotoatomic (o : paTable) | SDosimetry (o : dosTable) | SPhotonuclear (o : puTable).

Definition tyr_of (m : option subblocks) : option tyr := match m with Some (STyr t) => Some t | _ => None end.
Definition as_ {A} (f : A -> subblocks) (o : outcome A) : outcome subblocks := x <- o ;; Ok (f x).
(** generateBlocks of each class (cited where they are defined) *)
Definition ace_gen bm (p : fields) (v : view) (m : option subblocks) : outcome subblocks :=
  match p with
  | FTabulated => as_ STabulated (td_generateBlocks bm v)
  | FEvaporation => as_ SEvaporation (ev_generateBlocks bm v)
  | FGeneralEvaporation => as_ SGeneralEvaporation (ge_generateBlocks bm v)
  | FWatt => as_ SWatt (wa_generateBlocks bm v)
  | FFissionMultiplicity => as_ SPrefixed (tf_make bm v)
  | FParticleMultiplicity => as_ SPrefixed (ts_make bm v)
  | FEquiprobable => as_ SEquiprobable (eq_generateBlocks bm v)
  | FAngular locb => as_ SAngular (an_generateBlocks bm locb v)
  | FOutgoing locb => as_ SOutgoing (dd_generateBlocks bm (tq_make bm) locb v)
  | FAngleEnergy locb => as_ SAngleEnergy (dd_generateBlocks bm (ae_make bm) locb v)
  | FEnergyAngle locb => as_ SEnergyAngle (dd_generateBlocks bm (ea_make bm) locb v)
  | FMulti locb => as_ SMulti (mu_make bm locb v)
  | FPrecursor number => as_ SPrecursor (dp_make bm v number)
  | FPrecursors npcr => as_ SPrecursors (bd_generateBlocks bm v npcr)
  | FNu => as_ SNu (nu_generateBlocks bm v)
  | FUnr => as_ SUnr (un_generateBlocks bm v)
  | FTyr ntr => as_ STyr (ty_generateBlocks bm v ntr)
  | FAnd nr zero => as_ SAnd (ab_generateBlocks bm v nr zero (vbeg v + nr + (if zero then 1 else 0)))
  | FDlw nr => match tyr_of m with Some t => as_ SDlw (dl_generateBlocks bm v nr t) | None => UB end
  | FDlwh n =>
      d <- bl_generateBlocks bm (dh_generateData bm) v n true (vbeg v + n) ;;
      f <- dh_generateFrames (tyr_of m) n ;; Ok (SDlwh d f)
  | FSigd n => as_ SSigd (bl_generateBlocks bm (sigd_gd bm) v n true (vbeg v + n))
  | FElectron n => as_ SElectron (eb_generateBlocks bm v n)
  | FTable c zaid iz aw nxs jxs =>
      let d := TData iz aw nxs jxs (buf v) in
      match c with
      | Continuous => as_ SContinuous (ce_generateBlocks bm zaid d)
      | Thermal => as_ SThermal (th_make bm zaid d)
      | Photoatomic => as_ SPhotoatomic (pa_make bm zaid d)
      | Dosimetry => as_ SDosimetry (dt_make bm zaid d)
      | Photonuclear => as_ SPhotonuclear (pu_generateBlocks bm zaid d)
      end
  end.
(** verifyType and setSZA in the constructors of the tables, e.g. src/ACEtk/ContinuousEnergyTable/src/ctor.hpp:6-49
    and src/ACEtk/PhotonuclearTable/src/ctor.hpp:6-49; nothing in blocks *)
Definition ace_sza bm (c : tclass) (zaid : list ascii) iz aw nxs jxs : outcome fields :=
  d <- setSZA bm zaid (TData iz aw nxs jxs []) ;; Ok (FTable c zaid (d_iz d) (d_aw d) (d_nxs d) (d_jxs d)).
Definition ace_check bm (p : fields) : outcome fields :=
  match p with
  | FTable Continuous zaid iz aw nxs jxs => _ <- verifyType ["c"; "h"; "o"; "r"; "s"; "a"]%char zaid ;; ace_sza bm Continuous zaid iz aw nxs jxs
  | FTable Photonuclear zaid iz aw nxs jxs => _ <- verifyType ["u"%char] zaid ;; ace_sza bm Photonuclear zaid iz aw nxs jxs
  | FTable Thermal zaid _ _ _ _ => _ <- verifyType ["t"%char] zaid ;; Ok p
  | FTable Photoatomic zaid _ _ _ _ => _ <- verifyType ["p"%char] zaid ;; Ok p
  | FTable Dosimetry zaid _ _ _ _ => _ <- verifyType ["y"%char] zaid ;; Ok p
  | _ => Ok p
  end.
(** In the assignments: the same (ContinuousEnergyTable/src/ctor.hpp:51-83), but a photonuclear table does not
    call setSZA there (PhotonuclearTable/src/ctor.hpp:51-81). *)
Definition ace_assign bm (p : fields) : outcome fields :=
  match p with
  | FTable Photonuclear zaid _ _ _ _ => _ <- verifyType ["u"%char] zaid ;; Ok p
  | _ => ace_check bm p
  end.
(** src/ACEtk/continuous/FissionMultiplicityBlock/src/ctor.hpp:13-14 *)
Definition ace_move_copies (p : fields) : bool := match p with FNu => true | _ => false end.
Definition ace (bm : build) : class := Class fields subblocks (ace_gen bm) (ace_check bm) (ace_assign bm) ace_move_copies.

(** * setSZA twice *)
Lemma bind_ok {A B} (o : outcome A) (f : A -> outcome B) r : bind o f = Ok r -> exists x, o = Ok x /\ f x = Ok r.
Proof. destruct o; cbn; try discriminate. eauto. Qed.
Lemma upd_same {A} (x : A) : forall k s, nth_error s k = Some x -> BlockWithLocators.upd k x s = Ok s.
Proof.
  induction k as [|k IH]; intros [|y s]; cbn; try discriminate.
  - intros E. injection E as ->. reflexivity.
  - intros E. now rewrite (IH _ E).
Qed.
Lemma upd_length {A} (x : A) : forall k s s', BlockWithLocators.upd k x s = Ok s' -> length s' = length s /\ nth_error s' k = Some x /\ forall j, j <> k -> nth_error s' j = nth_error s j.
Proof.
  intros k s s' E. assert (L : (k < length s)%nat).
  { revert s s' E. induction k as [|k IH]; intros [|y s] s'; cbn; try discriminate; [lia|].
    destruct (BlockWithLocators.upd k x s) as [r| |] eqn:U; try discriminate. intros _. specialize (IH _ _ U). lia. }
  destruct (upd_nth x k s L) as (s2 & E2 & H). rewrite E in E2. injection E2 as ->. exact H.
Qed.
Section I.
Context (bm : build).
Lemma seq_len {A B} (s : list A) (t : list B) i : length s = length t -> check bm (seq_verify s i) = check bm (seq_verify t i).
Proof. intros E. unfold seq_verify, len. now rewrite E. Qed.
Lemma store_fetch {A} (s s' : list A) i x : store bm s i x = Ok s' -> 
  length s' = length s /\ fetch bm s' i = Ok x /\ (fetch bm s' i = Ok x -> store bm s' i x = Ok s') /\
  (forall j, 1 <= i < 100 -> 1 <= j < 100 -> j <> i -> fetch bm s' j = fetch bm s j).
Proof.
  unfold store. intros E. apply bind_ok in E as (u & C & E). destruct (_ <? _) eqn:L in E; [|discriminate].
  destruct (upd_length _ _ _ _ E) as (Ln & N & O). split; [exact Ln|].
  assert (F : fetch bm s' i = Ok x).
  { unfold fetch. rewrite (seq_len s' s i Ln), C. cbn [bind]. unfold len in *. rewrite Ln, L, N. reflexivity. }
  split; [exact F|]. split.
  - intros _. rewrite (seq_len s' s i Ln), C. cbn [bind]. unfold len in *. rewrite Ln, L. apply upd_same, N.
  - intros j Hi Hj D. unfold fetch. rewrite (seq_len s' s j Ln). unfold len. rewrite Ln.
    rewrite O; [reflexivity|]. rewrite !(u64_small j), !(u64_small i), !u64_small by lia. lia.
Qed.
Lemma setSZA_again zaid d d' : setSZA bm zaid d = Ok d' -> setSZA bm zaid d' = Ok d'.
Proof.
  unfold setSZA. intros E. pose proof E as E0.
  apply bind_ok in E as (n9 & E9 & E). apply bind_ok in E as (n10 & E10 & E). apply bind_ok in E as (n11 & E11 & E).
  destruct ((n9 =? 0) && (n10 =? 0) && (n11 =? 0)) eqn:Z0.
  2:{ injection E as <-. rewrite E9. cbn [bind]. rewrite E10. cbn [bind]. rewrite E11. cbn [bind]. rewrite Z0. reflexivity. }
  apply bind_ok in E as (za & En & E). apply bind_ok in E as ([[s z] a] & Ed & E).
  apply bind_ok in E as (l1 & S1 & E). apply bind_ok in E as (l2 & S2 & E). apply bind_ok in E as (l3 & S3 & E). injection E as <-.
  destruct (store_fetch _ _ _ _ S1) as (L1 & F1 & _ & O1). destruct (store_fetch _ _ _ _ S2) as (L2 & F2 & _ & O2). destruct (store_fetch _ _ _ _ S3) as (L3 & F3 & A3 & O3).
  unfold d_NXS. cbn [d_iz d_aw d_nxs d_jxs d_xss].
  assert (G9 : fetch bm l3 9 = Ok s) by (rewrite O3, O2 by lia; exact F1).
  assert (G10 : fetch bm l3 10 = Ok z) by (rewrite O3 by lia; exact F2).
  rewrite G9. cbn [bind]. destruct (s =? 0) eqn:Es; [|reflexivity]. rewrite G10. cbn [bind andb].
  destruct (z =? 0) eqn:Ez; [|reflexivity]. rewrite F3. cbn [bind andb]. destruct (a =? 0); [|reflexivity].
  rewrite En. cbn [bind]. rewrite Ed. cbn [bind].
  assert (K : forall i x, fetch bm l3 i = Ok x -> store bm l3 i x = Ok l3).
  { intros i x F. unfold fetch, store in *. apply bind_ok in F as (u & C & F). rewrite C. cbn [bind].
    revert F. destruct (u64 (u64 i - 1) <? len l3); [|intros F; exfalso; revert F; clear; intros F; discriminate F]. destruct (nth_error l3 (Z.to_nat (u64 (u64 i - 1)))) as [y|] eqn:N; [|intros F; inversion F]. intros F. injection F as ->. now apply upd_same. }
  rewrite (K _ _ G9). cbn [bind]. rewrite (K _ _ G10). cbn [bind]. rewrite (K _ _ F3). reflexivity.
Qed.
Lemma ace_sza_again c zaid iz aw nxs jxs q : ace_sza bm c zaid iz aw nxs jxs = Ok q ->
  exists iz aw nxs jxs, q = FTable c zaid iz aw nxs jxs /\ ace_sza bm c zaid iz aw nxs jxs = Ok q.
Proof.
  unfold ace_sza. intros E. apply bind_ok in E as (d & S & E). injection E as <-. do 4 eexists. split; [reflexivity|].
  assert (X : d_xss d = []).
  { unfold setSZA in S. apply bind_ok in S as (n9 & _ & S). apply bind_ok in S as (n10 & _ & S). apply bind_ok in S as (n11 & _ & S).
    destruct (_ && _ && _); [|injection S as <-; reflexivity]. apply bind_ok in S as (za & _ & S). apply bind_ok in S as ([[s z] a] & _ & S).
    apply bind_ok in S as (l1 & _ & S). apply bind_ok in S as (l2 & _ & S). apply bind_ok in S as (l3 & _ & S). injection S as <-. reflexivity. }
  apply setSZA_again in S. destruct d as [iz' aw' nxs' jxs' xss']. cbn in X |- *. subst xss'. rewrite S. reflexivity.
Qed.
Lemma ace_settled : settled (ace bm).
Proof.
  intros p q E. cbn in E |- *. destruct p; cbn in E; try (injection E as <-; split; reflexivity).
  destruct c; try (apply bind_ok in E as (u & V & E); injection E as <-; cbn; rewrite V; split; reflexivity).
  all: apply bind_ok in E as (u & V & E); destruct (ace_sza_again _ _ _ _ _ _ _ E) as (? & ? & ? & ? & -> & E'); cbn; rewrite V; cbn [bind]; split; [exact E'| exact E' || reflexivity].
Qed.
End I.
