(** Photonuclear tables: C25, C22, C23. *)
From Coq Require Import ZArith Bool List Lia Ascii.
From Coq Require Import ZifyBool ZifyNat.
From Verif Require Import PropLemmasBasic.
From Verif Require Export PhotonuclearValues.
Import ListNotations.
Open Scope Z_scope.

(** A photonuclear table built from valid values shows these values in each of its blocks, with the numbers (NXS),
    locators (JXS) and number of words (XSS) that describe them, with and without elastic cross sections and for any number
    of secondary particles.  [pu_valid]: the numbers of energies and of reactions agree and the numbers fit their types.
    [pu_apart]: see PhotonuclearValues.v and the theorems below. *)
Theorem C25_photonuclear_table : forall bm asrt esrt z a st zaid v,
  sort_contract asrt -> eqb_sort_contract esrt -> pu_valid esrt v -> pu_apart v -> pu_size v + 1 < max_words ->
  0 <= z -> 0 <= a -> 1000 * z + a < 2 ^ 32 -> ~ (st = 0 /\ z = 0 /\ a = 0) ->
  exists i t, pu_build bm asrt esrt v = Ok i /\ pu_of bm z a st (zaid ++ ["u"%char]) i = Ok t
    /\ ut_zaid t = zaid ++ ["u"%char] /\ d_nxs (ut_data t) = pu_nxs z a st v /\ d_jxs (ut_data t) = pu_jxs v /\ len (d_xss (ut_data t)) = pu_size v
    /\ pu_returns bm v t.
Proof.
  intros bm asrt esrt z a st zaid v Hs He V HA B Hz Ha Hza N.
  destruct (pu_from_values bm asrt esrt z a st (zaid ++ ["u"%char]) v Hs He V HA B Hz Ha Hza) as (i & s & E & D & (t & T & T1 & T2 & T3) & E1 & E2 & E3).
  exists i, t. split; [exact E|]. split.
  - unfold pu_of. rewrite D. cbn [bind]. unfold pu_make. rewrite verifyType_spec. cbn [existsb bind]. rewrite Ascii.eqb_refl. cbn [bind orb].
    rewrite (setSZA_kept bm _ _ st z a); [cbn [bind]; exact T| | | | |exact N].
    + split; [reflexivity|]. split; [reflexivity|]. split; [reflexivity|]. rewrite E2. unfold pu_jxs. destruct (eu_none (u_el v)); reflexivity.
    + destruct bm; reflexivity.
    + destruct bm; reflexivity.
    + destruct bm; reflexivity.
  - split; [exact T1|]. rewrite T2. cbn [d_nxs d_jxs d_xss]. auto.
Qed.
Print Assumptions C25_photonuclear_table.

(** The condition [pu_apart] holds for tables as they occur: types of particles up to 37, no more reactions of a particle than
    reactions of the table, and at least three energies. *)
Theorem C25_photonuclear_usual : forall bm asrt esrt z a st zaid v,
  sort_contract asrt -> eqb_sort_contract esrt -> pu_valid esrt v -> Forall (fun p => uv_type p <= 37 /\ len (uv_mts p) <= len (u_mts v)) (u_parts v) -> 3 <= len (u_en v) ->
  pu_size v + 1 < max_words -> 0 <= z -> 0 <= a -> 1000 * z + a < 2 ^ 32 -> ~ (st = 0 /\ z = 0 /\ a = 0) ->
  exists i t, pu_build bm asrt esrt v = Ok i /\ pu_of bm z a st (zaid ++ ["u"%char]) i = Ok t
    /\ ut_zaid t = zaid ++ ["u"%char] /\ d_nxs (ut_data t) = pu_nxs z a st v /\ d_jxs (ut_data t) = pu_jxs v /\ len (d_xss (ut_data t)) = pu_size v
    /\ pu_returns bm v t.
Proof. intros. apply C25_photonuclear_table; try assumption. eapply pu_apart_usual; eassumption. Qed.
Print Assumptions C25_photonuclear_usual.

(** An example: three energies, two reactions, two secondary particles *)
Definition ex_upart (ty : Z) : upartV := UpartV ty (SigEntry 1 [dbl 3; dbl 4]) (SigEntry 2 [dbl 5]) [5] [SighEntry 12 5 [] [] [dbl 1; dbl 20] [dbl 2; dbl 3]]
  [[dbl 12; dbl 5; dbl 0; dbl 2; dbl 1; dbl 20; dbl 2; dbl 3]] [ex_ang] [ISingle ex_level] [CentreOfMass] 11.
Definition ex_pu : puV := PuV [dbl 1; dbl 10; dbl 20] [dbl 4; dbl 5; dbl 6] (Some [dbl 7; dbl 8; dbl 9]) [dbl 1; dbl 2; dbl 3] [5; 18] [dbl 100; dbl 200]
  [SigEntry 1 [dbl 1; dbl 2]; SigEntry 2 [dbl 3]] [ex_upart 1; ex_upart 31].
Lemma ex_upart_valid ty : 0 <= ty <= 37 -> upart_valid eqb_isort (ex_upart ty).
Proof.
  intros Ht. pose proof (ex_level_valid eqb_isort) as [VL SL]. pose proof ex_ang_ok as VA.
  constructor; cbn [ex_upart uv_type uv_pxs uv_phn uv_mts uv_sigh uv_sigw uv_ang uv_en uv_frames uv_n].
  - lia.
  - split; [discriminate|reflexivity].
  - split; [discriminate|reflexivity].
  - mtv.
  - split; [repeat (apply Forall_cons; [cbn; lia|]); apply Forall_nil|]. split; reflexivity.
  - split; [fa VA VL|reflexivity].
  - split; [fa VA VL|]. split; [exists [11]; split; [repeat constructor; exact SL|reflexivity]|]. split; reflexivity.
Qed.
Example C25_photonuclear_valid : pu_valid eqb_isort ex_pu /\ Forall (fun p => uv_type p <= 37 /\ len (uv_mts p) <= len (u_mts ex_pu)) (u_parts ex_pu) /\ 3 <= len (u_en ex_pu)
  /\ pu_apart ex_pu /\ pu_size ex_pu + 1 < max_words.
Proof.
  assert (V : pu_valid eqb_isort ex_pu).
  { constructor; cbn [ex_pu u_en u_tot u_el u_heat u_mts u_qs u_sig u_parts eu_arrays].
    - repeat (apply Forall_cons; [reflexivity|]); apply Forall_nil.
    - mtv.
    - reflexivity.
    - split; [|reflexivity]. repeat (apply Forall_cons; [split; [discriminate|reflexivity]|]); apply Forall_nil.
    - repeat (apply Forall_cons; [apply ex_upart_valid; lia|]); apply Forall_nil. }
  assert (F : Forall (fun p => uv_type p <= 37 /\ len (uv_mts p) <= len (u_mts ex_pu)) (u_parts ex_pu)) by (repeat (apply Forall_cons; [split; discriminate|]); apply Forall_nil).
  assert (L : 3 <= len (u_en ex_pu)) by discriminate.
  split; [exact V|]. split; [exact F|]. split; [exact L|]. split; [exact (pu_apart_usual _ _ V F L)|vm_compute; reflexivity].
Qed.
Definition ex_pu_table bm v : outcome puTable := i <- pu_build bm an_isort eqb_isort v ;; pu_of bm 92 235 0 ["9"; "2"; "u"]%char i.
Example C25_photonuclear_example :
  (t <- ex_pu_table Debug ex_pu ;; p <- pu_at t 2 ;; h <- xs_crossSections Debug (up_phn p) ;; el <- eu_elastic Debug (ut_eszu t) ;; o <- deref_opt (ut_ixs t) ;; k <- iu_index Debug o 31 ;;
   d <- dh_distribution Debug (up_dlwh p) 1 ;; Ok (h, el, k, match d with Single e => ed_LAW e | _ => 0 end, d_nxs (ut_data t)))
  = Ok ([dbl 5], [dbl 7; dbl 8; dbl 9], 2, 3, pu_nxs 92 235 0 ex_pu).
Proof. vm_compute. reflexivity. Qed.

(** The library type is checked. *)
Theorem C25_photonuclear_type_rejected bm zaid c d : c <> "u"%char -> pu_make bm (zaid ++ [c]) d = Throw StdException.
Proof. intros H. unfold pu_make. rewrite verifyType_spec. cbn [existsb]. destruct (Ascii.eqb_spec c "u"%char); [contradiction|]. reflexivity. Qed.
Print Assumptions C25_photonuclear_type_rejected.

(** When S, Z and A are all zero they are taken from the ZAID: C23 (setSZA) is the only step between the two constructors. *)

(** Different numbers of reactions in MTR, LQR and SIG are rejected, whatever the other blocks, when the energy distributions
    of the secondary particles come with reference frames. *)
Theorem C22_photonuclear_rejected bm z a st zaid i th : ce_generateTYRH bm (ui_dlwh i) = Ok th ->
  mt_NTR (ui_lqr i) <> mt_NTR (ui_mtr i) \/ bl_n (ui_sig i) <> mt_NTR (ui_mtr i) -> pu_of bm z a st zaid i = Throw StdException.
Proof.
  intros T H. unfold pu_of, pu_generateData. rewrite T. cbn [bind]. destruct (Z.eqb_spec (mt_NTR (ui_mtr i)) (mt_NTR (ui_lqr i))); [|reflexivity].
  destruct (Z.eqb_spec (mt_NTR (ui_mtr i)) (bl_n (ui_sig i))); [|reflexivity]. destruct H; lia.
Qed.
Print Assumptions C22_photonuclear_rejected.
Example C22_photonuclear_ex :
  (i <- pu_build Debug an_isort eqb_isort ex_pu ;; q <- lq_of [dbl 100] ;;
   Ok (match ce_generateTYRH Debug (ui_dlwh i) with Ok (Some l) => len l | _ => 0 end, mt_NTR (ui_mtr i), mt_NTR q,
       pu_of Debug 92 235 0 ["u"]%char (match i with PuIn a b _ d e f g h j k l => PuIn a b q d e f g h j k l end)))
  = Ok (2, 2, 1, Throw StdException).
Proof. vm_compute. reflexivity. Qed.

(** Outside [pu_apart] the table constructor loses the energy distributions: one energy, no reactions, and a second particle
    whose type is the place of the energy distributions of the first one.  And vectors of blocks for the secondary
    particles that are missing or shorter than the vector of types are not checked. *)
Definition ex_upart0 (ty : Z) : upartV := UpartV ty (SigEntry 1 []) (SigEntry 1 []) [5] [SighEntry 12 5 [] [] [dbl 1; dbl 20] [dbl 2; dbl 3]]
  [[dbl 12; dbl 5; dbl 0; dbl 2; dbl 1; dbl 20; dbl 2; dbl 3]] [DIso] [ISingle ex_level] [CentreOfMass] 11.
Definition ex_pu0 (ty : Z) : puV := PuV [dbl 1] [dbl 4] None [dbl 1] [] [] [] [ex_upart0 1; ex_upart0 ty].
Definition pu_words_of bm v : outcome (list Z * list Z) :=
  i <- pu_build bm an_isort eqb_isort v ;; t <- pu_of bm 92 235 0 ["u"]%char i ;;
  Ok (match ui_dlwh i with Some l => map (fun d => vend (bl_v (dh_block d)) - vbeg (bl_v (dh_block d))) l | None => [] end,
      map (fun p => vend (bl_v (dh_block (up_dlwh p))) - vbeg (bl_v (dh_block (up_dlwh p)))) (ut_particles t)).
Definition pu_without (f : option (list view) -> option (list view)) bm v : outcome unit :=
  i <- pu_build bm an_isort eqb_isort v ;;
  _ <- pu_of bm 92 235 0 ["u"]%char (match i with PuIn a b c d e p g h j k l => PuIn a b c d e (f p) g h j k l end) ;; Ok tt.
Theorem C25_photonuclear_apart_refuted :
  pu_words_of Debug (ex_pu0 31) = Ok ([12; 12], [12; 12])
  /\ pu_words_of Debug (ex_pu0 45) = Throw StdException
  /\ pu_words_of Debug (ex_pu0 57) = Ok ([12; 12], [13; 12])
  /\ pu_without (fun p => p) Debug ex_pu = Ok tt
  /\ pu_without (fun _ => None) Debug ex_pu = Throw BadOptional
  /\ pu_without (option_map (@tl view)) Debug ex_pu = UB.
Proof. conc. Qed.
Print Assumptions C25_photonuclear_apart_refuted.
