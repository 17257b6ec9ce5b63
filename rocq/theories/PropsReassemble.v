(** Property theorems C46: a table's own blocks, handed to the constructor again, give the same table. *)
From Coq Require Import ZArith Bool List Lia Ascii.
From Coq Require Import ZifyBool ZifyNat.
From Verif Require Import PropsTables PropsPhotoatomic PropsPhotonuclear ReassembleAtomic ReassembleNuclear PropsThermal.
From Verif Require Import ContinuousData ContinuousValues CeFromValues PropsContinuous Reassemble.
Import ListNotations.
Open Scope Z_scope.

(** * Continuous energy *)

(** A table is built from values ([C21_continuous_energy_from_values]); ESZ(), NU(), ..., YH( i ) of that table are
    handed to the constructor with the same charge, mass, state and identifier: the result is the same table, every array and every block.
    Unresolved resonance data with photon production data need delayed neutron data: see [C46_continuous_energy_refuted]. *)
Theorem C46_continuous_energy_reassembled : forall bm asrt esrt z a st zaid c v,
  sort_contract asrt -> eqb_sort_contract esrt -> In c ["c"; "h"; "o"; "r"; "s"; "a"]%char ->
  ce_valid esrt v -> ce_size v < max_words -> 101 + v_n v < max_words ->
  (v_unr v <> None -> v_delayed v <> None \/ v_photon v = None) ->
  0 <= z -> 0 <= a -> 1000 * z + a < 2 ^ 32 -> ~ (st = 0 /\ z = 0 /\ a = 0) ->
  exists i t, ce_build bm asrt esrt v = Ok i /\ ce_of bm z a st (zaid ++ [c]) i = Ok t /\ ce_returns bm v t
    /\ ce_of bm z a st (zaid ++ [c]) (ce_own t) = Ok t.
Proof.
  intros bm asrt esrt z a st zaid c v Hs He Hc V B B' U Hz Ha Hza N.
  destruct (ce_from_values bm asrt esrt v Hs He V B B') as (i & s & E & I & SZ & FD & RD & DN & RT & L & M & CC).
  destruct (C21_continuous_energy_round_trip bm z a st zaid c i s Hc I SZ FD RD DN Hz Ha Hza N) as (f & t & _ & T & T1 & T2 & T3).
  exists i, t. split; [exact E|]. split; [exact T|]. split; [exact (RT t T3)|].
  apply (ce_reassembled bm z a st zaid c i s t Hc I SZ FD RD); try assumption.
  - rewrite M. exact (v_mts_ok _ _ V).
  - intros X. pose proof (cc_unr _ _ CC) as Q. pose proof (cc_delayed _ _ CC) as Q1. pose proof (cc_photon _ _ CC) as Q2.
    destruct (v_unr v); [|destruct (s_unr s); [discriminate Q|contradiction]]. destruct U as [U|U]; [discriminate|left|right].
    + destruct (s_delayed s); [discriminate|]. destruct (v_delayed v); [discriminate Q1|contradiction].
    + rewrite U in Q2. destruct (s_photon s); [discriminate Q2|reflexivity].
  - intros S. specialize (RT t S). split.
    + pose proof (rt_esz _ _ _ RT) as (_ & Ee & _). eexists. split; [exact Ee|]. symmetry. exact (cc_nes _ _ CC).
    + intros n En. pose proof (rt_dnu _ _ _ RT) as R. rewrite En in R. destruct (v_delayed v) as [d|]; cbn [opt_returns] in R; [|contradiction].
      destruct R as (R1 & _ & R2). destruct (nu_prompt n) as [p|o]; [contradiction|]. exists o. split; [reflexivity|]. split; [exact R2|apply R1].
Qed.
Print Assumptions C46_continuous_energy_reassembled.
Example C46_continuous_example : exists i t, ce_build Debug an_isort eqb_isort PropsContinuous.ex_ce = Ok i /\ ce_of Debug 92 235 0 ["9"; "2"; "c"]%char i = Ok t
  /\ ce_of Debug 92 235 0 ["9"; "2"; "c"]%char (ce_own t) = Ok t.
Proof.
  destruct C21_valid as (V & B & B').
  destruct (C46_continuous_energy_reassembled Debug an_isort eqb_isort 92 235 0 ["9"; "2"]%char "c"%char PropsContinuous.ex_ce an_isort_contract eqb_isort_contract
    ltac:(left; reflexivity) V B B' ltac:(intros _; left; discriminate) ltac:(lia) ltac:(lia) ltac:(lia) ltac:(lia)) as (i & t & E & T & _ & R).
  exists i, t. auto.
Qed.

(** Without delayed neutron data the UNR block of a table with photon production data reaches to the end of these data
    ([C21_table_refuted]): a table made from the blocks of that table has these data twice. *)
Theorem C46_continuous_energy_refuted :
  (t <- ex_table Debug (ex_with (Some ex_unr, None, Some ex_photon)) ;; t' <- ce_of Debug 92 235 0 ["9"; "2"; "c"]%char (ce_own t) ;;
   Ok (len (d_xss (ct_data t)), len (d_xss (ct_data t')))) = Ok (234, 320).
Proof. vm_compute. reflexivity. Qed.
Print Assumptions C46_continuous_energy_refuted.

(** * Thermal scattering *)

Theorem C46_thermal_reassembled : forall bm s v, th_valid v ->
  exists t, th_build bm (s ++ ["t"%char]) v = Ok t /\ th_returns bm (s ++ ["t"%char]) v t
    /\ th_of bm (s ++ ["t"%char]) (th_own (tv_za v) t) = Ok t.
Proof. intros bm s v V. destruct (th_from_values bm (s ++ ["t"%char]) v) as (t & E & R & _ & O & _); [rewrite verifyType_spec; reflexivity|exact V|]. exists t. auto. Qed.
Print Assumptions C46_thermal_reassembled.
Example C46_thermal_example : exists v t, tv_ce v <> None /\ tv_ca v <> None /\ tv_cai v <> None /\ th_build Debug ["x"; "t"]%char v = Ok t /\ th_of Debug ["x"; "t"]%char (th_own (tv_za v) t) = Ok t.
Proof.
  destruct (C46_thermal_reassembled Debug ["x"]%char _ (ex_th_valid (Some ex_ca) (or_intror eq_refl))) as (t & E & _ & O). eexists; exists t.
  refine (conj _ (conj _ (conj _ (conj E O)))); discriminate.
Qed.

(** * Dosimetry *)

Theorem C46_dosimetry_reassembled : forall bm z a zaid mtr sigd mts ts cs ws,
  mapM (fun t => let '(nbt, int, x, y) := t in td_generateXSS nbt int x y) ts = Ok cs -> bl_generateXSS true cs = Ok ws ->
  content (ad_v mtr) (map dbl mts) -> mt_NTR mtr = len mts -> content (bl_v sigd) ws -> bl_n sigd = len ts -> len mts = len ts -> mt_valid mts ->
  len mts + len ws < max_words -> 0 <= z -> 0 <= a -> 1000 * z + a < 2 ^ 32 ->
  exists t, dt_of bm z a (zaid ++ ["y"%char]) mtr sigd = Ok t /\ dt_of bm z a (zaid ++ ["y"%char]) (dt_mtr t) (dt_sig t) = Ok t.
Proof.
  intros bm z a zaid mtr sigd mts ts cs ws G Gl Cm Nm Cs Ns L V B Hz Ha Hza.
  destruct (C25_dosimetry_round_trip bm z a zaid mtr sigd mts ts cs ws G Gl Cm Nm Cs Ns L V B Hz Ha Hza) as (t & T & _ & _ & _ & _ & _ & Cm' & Sm & _ & Cs' & Ns' & _).
  exists t. split; [exact T|]. rewrite <- T. unfold dt_of. rewrite (xss_all_content _ _ Cm), (xss_all_content _ _ Cs), (xss_all_content _ _ Cm'), (xss_all_content _ _ Cs').
  destruct Sm as (Nm' & _). rewrite Nm, Nm', Ns, Ns'. reflexivity.
Qed.
Print Assumptions C46_dosimetry_reassembled.
Example C46_dosimetry_example : (m <- mt_of [16; 102] ;; cs <- mapM (fun t => let '(nbt, int, x, y) := t in td_generateXSS nbt int x y) [([], [], [dbl 1; dbl 2], [dbl 3; dbl 4]); ([2], [5], [dbl 6; dbl 7], [dbl 8; dbl 9])] ;;
  s <- bl_of Debug (sigd_gd Debug) true cs ;; t <- dt_of Debug 92 235 ["y"]%char m s ;; t' <- dt_of Debug 92 235 ["y"]%char (dt_mtr t) (dt_sig t) ;;
  Ok (len (d_xss (dt_data t)), d_jxs (dt_data t') , bl_n (dt_sig t'))) = Ok (18, [1; 0; 1; 0; 0; 3; 5] ++ repeat 0 14 ++ [18] ++ repeat 0 10, 2).
Proof. vm_compute. reflexivity. Qed.

(** * Photoatomic *)

Theorem C46_photoatomic_reassembled : forall bm s v, pa_valid v ->
  exists t, pa_build bm (s ++ ["p"%char]) v = Ok t /\ pa_returns bm (s ++ ["p"%char]) v t
    /\ pa_of bm (s ++ ["p"%char]) (pa_own (vp_z v) (vp_za v) (vp_awr v) t) = Ok t.
Proof. intros bm s v V. apply pa_reassembled; [rewrite verifyType_spec; reflexivity|exact V]. Qed.
Print Assumptions C46_photoatomic_reassembled.
Example C46_photoatomic_example : exists t, pa_build Debug ["x"; "p"]%char ex_photo = Ok t /\ pa_of Debug ["x"; "p"]%char (pa_own (vp_z ex_photo) (vp_za ex_photo) (vp_awr ex_photo) t) = Ok t.
Proof. destruct (C46_photoatomic_reassembled Debug ["x"]%char _ ex_photo_valid) as (t & E & _ & O). exists t. exact (conj E O). Qed.

(** * Photonuclear *)

(** The types of the particles are those the IXS block of the table shows ([pu_returns]). *)
Theorem C46_photonuclear_reassembled : forall bm asrt esrt z a st zaid v,
  sort_contract asrt -> eqb_sort_contract esrt -> pu_valid esrt v -> pu_apart v -> pu_size v + 1 < max_words ->
  0 <= z -> 0 <= a -> 1000 * z + a < 2 ^ 32 -> ~ (st = 0 /\ z = 0 /\ a = 0) ->
  exists i t, pu_build bm asrt esrt v = Ok i /\ pu_of bm z a st (zaid ++ ["u"%char]) i = Ok t /\ pu_returns bm v t
    /\ pu_of bm z a st (zaid ++ ["u"%char]) (pu_own (map uv_type (u_parts v)) t) = Ok t.
Proof. exact pu_reassembled. Qed.
Print Assumptions C46_photonuclear_reassembled.
Example C46_photonuclear_example : exists i t, pu_build Debug an_isort eqb_isort ex_pu = Ok i /\ pu_of Debug 92 235 0 ["x"; "u"]%char i = Ok t
  /\ pu_of Debug 92 235 0 ["x"; "u"]%char (pu_own (map uv_type (u_parts ex_pu)) t) = Ok t.
Proof.
  destruct C25_photonuclear_valid as (V & _ & _ & A & B).
  destruct (C46_photonuclear_reassembled Debug an_isort eqb_isort 92 235 0 ["x"]%char ex_pu an_isort_contract eqb_isort_contract V A B ltac:(lia) ltac:(lia) ltac:(lia) ltac:(lia)) as (i & t & E & T & _ & O).
  exists i, t. exact (conj E (conj T O)).
Qed.
