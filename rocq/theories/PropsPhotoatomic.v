(** Photoatomic tables: C25, C22. *)
From Coq Require Import ZArith Bool List Lia Ascii.
From Coq Require Import ZifyBool ZifyNat.
From Verif Require Import PropLemmasBasic.
From Verif Require Export PhotoatomicValues.
Import ListNotations.
Open Scope Z_scope.

(** A photoatomic table built from valid values shows these values in each of its blocks, with the numbers (NXS),
    locators (JXS) and words (XSS) that describe them, for every combination of the optional blocks: fluorescence,
    electron shells, electron data, small angle elastic cross sections. *)
Theorem C25_photoatomic_table bm s v : pa_valid v -> exists t, pa_build bm (s ++ ["p"%char]) v = Ok t /\ pa_returns bm (s ++ ["p"%char]) v t.
Proof. intros V. apply pa_from_values; [rewrite verifyType_spec; reflexivity|exact V]. Qed.
Print Assumptions C25_photoatomic_table.

(** A table with all blocks, and one with only the required ones. *)
Definition ex_eb : list eb_in := [EbIn (dbl 1) [dbl 2; dbl 3] [dbl 0; dbl 1]; EbIn (dbl 4) [dbl 5] [dbl 1]].
Definition ex_electrons : electronV := ElectronV [1; 3] [dbl 2; dbl 1] [dbl 10; dbl 11] [dbl 0; dbl 1] [1; 0] [[dbl 5; dbl 6]; [dbl 7; dbl 8]]
  [[TrIn 3 0 (dbl 50) (dbl 1)]; []] [dbl 1; dbl 2; dbl 3] [dbl 4; dbl 5; dbl 6] [dbl 1; dbl 1; dbl 1] [dbl 2; dbl 2; dbl 2] [dbl 3; dbl 3; dbl 3] [[dbl 9; dbl 9; dbl 9]]
  ([dbl 1; dbl 2], [dbl 3; dbl 4]) ex_eb [ex_eb; [EbIn (dbl 6) [dbl 7] [dbl 1]]] [EbIn (dbl 8) [] []] ([dbl 1], [dbl 2]) (Some ([dbl 1; dbl 2; dbl 3], [dbl 4; dbl 5; dbl 6])).
Definition ex_photo : photoV := PhotoV 1 [1000; 0] [dbl 1; dbl 2] [dbl 1; dbl 2] [dbl 3; dbl 4] [dbl 5; dbl 6] [dbl 7; dbl 8] [dbl 9; dbl 10]
  (Some [dbl 1; dbl 2], [dbl 3; dbl 4]) (Some [dbl 1], [dbl 2], [dbl 3]) (Some ([dbl 1], [dbl 2], [dbl 3], [dbl 4])) [dbl 11; dbl 12]
  (Some (ShellV [2] [dbl 13] [dbl 1] [(2, [dbl 1; dbl 2], [dbl 3; dbl 4], [dbl 5; dbl 6])])) (Some ex_electrons).
Definition ex_photo_min : photoV := PhotoV 1 [] [] [dbl 1; dbl 2] [dbl 3; dbl 4] [dbl 5; dbl 6] [dbl 7; dbl 8] [dbl 9; dbl 10]
  (None, repeat (dbl 1) 21) (None, repeat (dbl 2) 55, repeat (dbl 3) 55) None [dbl 11; dbl 12] None None.
Ltac vd := repeat first [constructor | split]; try lia; try reflexivity; try discriminate.
Lemma ex_photo_valid : pa_valid ex_photo.
Proof.
  constructor; cbn [ex_photo vp_z vp_za vp_awr vp_energies vp_jinc vp_jcoh vp_jflo vp_lhnm vp_shells vp_electrons vp_incoherent vp_coherent vp_photoelectric vp_pair fst snd]; try (vd; fail).
  all: try (vm_compute; reflexivity).
Qed.
Lemma ex_photo_min_valid : pa_valid ex_photo_min.
Proof. constructor; try (vd; fail). all: vm_compute; reflexivity. Qed.
Example C25_photoatomic_ex :
  (t <- pa_build Debug ["1"; "p"]%char ex_photo ;; b <- pa_EION Debug t 2 ;; e <- eb_energies Debug b ;; n <- d_NXS Debug (pt_data t) 7 ;; Ok (e, n, pa_EION Debug t 3)) = Ok ([dbl 6], 2, Throw OutOfRange)
  /\ (t <- pa_build Debug ["1"; "p"]%char ex_photo_min ;; j <- d_JXS Debug (pt_data t) 5 ;; Ok (j, len (d_xss (pt_data t)))) = Ok (142, 143).
Proof. split; vm_compute; reflexivity. Qed.

(** The library type is checked. *)
Theorem C25_photoatomic_type_rejected bm s c d : c <> "p"%char -> pa_make bm (s ++ [c]) d = Throw StdException.
Proof.
  intros H. unfold pa_make. rewrite verifyType_spec. cbn [existsb]. destruct (Ascii.eqb_spec c "p"%char); [contradiction|]. reflexivity.
Qed.
Print Assumptions C25_photoatomic_type_rejected.

(** Blocks whose sizes do not agree are rejected.  The electron blocks are all given or all missing. *)
Definition all_or_no_electrons (i : paIn) : Prop :=
  (exists a b c d e f g h, pa_subsh i = Some a /\ pa_sphel i = Some b /\ pa_xprob i = Some c /\ pa_esze i = Some d /\ pa_excit i = Some e /\ pa_elas i = Some f /\ pa_breme i = Some g /\ pa_breml i = Some h)
  \/ (pa_subsh i = None /\ pa_sphel i = None).
Definition pa_consistent (i : paIn) : Prop :=
  len (pa_za i) = len (pa_awr i) /\ ad_n (pa_lhnm i) = eg_NES (pa_eszg i)
  /\ (forall o, pa_sphel i = Some o -> sp_NES o = eg_NES (pa_eszg i))
  /\ (forall s x e, pa_subsh i = Some s -> pa_xprob i = Some x -> pa_esze i = Some e -> bl_n x = ss_NSSH s /\ ez_NSSH e = ss_NSSH s /\ len (pa_eion i) = ss_NSSH s)
  /\ (forall s e o, pa_subsh i = Some s -> pa_esze i = Some e -> pa_selas i = Some o -> two_N o = ez_NE e).

Lemma set_izaw_short : forall za awr k iz aw, (length za + k <= length awr)%nat -> (length za + k <= length iz)%nat -> (length za + k <= length aw)%nat ->
  exists r, set_izaw k za awr iz aw = Ok r.
Proof.
  induction za as [|z za IH]; intros awr k iz aw H1 H2 H3; [eexists; reflexivity|]. cbn [set_izaw length] in *.
  destruct (upd_nth (s32 z) k iz ltac:(lia)) as (iz' & E & L & _). rewrite E. cbn [bind]. unfold nth_or_UB.
  destruct (nth_error awr k) as [a|] eqn:Ea; [|apply nth_error_None in Ea; lia]. cbn [bind]. destruct (upd_nth a k aw ltac:(lia)) as (aw' & E' & L' & _). rewrite E'. cbn [bind]. apply IH; lia.
Qed.

Theorem C22_photoatomic_rejected bm zaid i : all_or_no_electrons i -> len (pa_za i) <= 16 -> len (pa_za i) <= len (pa_awr i) -> ~ pa_consistent i -> pa_of bm zaid i = Throw StdException.
Proof.
  intros HE H16 Hza HC. unfold pa_of, pa_generateData.
  destruct (set_izaw_short (pa_za i) (pa_awr i) 0 (zeros 16) (dzeros 16)) as (r & Er); [unfold len in *; lia|unfold zeros; rewrite repeat_length; unfold len in *; lia|unfold dzeros; rewrite repeat_length; unfold len in *; lia|].
  rewrite Er. cbn [bind].
  destruct HE as [(a & b & c & d & e & f & g & h & Ea & Eb & Ec & Ed & Ee & Ef & Eg & Eh)|[Ea Eb]].
  - assert (ES : exists n, pa_sizes i = Ok n /\ n_nepr n = (match pa_selas i with Some _ => 3 | None => 1 end) /\ n_nes n = eg_NES (pa_eszg i) /\ n_nssh n = ss_NSSH a /\ n_ne n = ez_NE d).
    { unfold pa_sizes. rewrite Ea, Ed, Ee, Ef, Eg, Eh. cbn [has_value deref_opt bind]. destruct (pa_selas i); cbn [has_value]; eexists; (split; [reflexivity|]); cbn [n_nepr n_nes n_nssh n_ne]; auto. }
    destruct ES as (n & ES & N1 & N2 & N3 & N4). rewrite ES. cbn [bind]. assert (EC : pa_check i n = Throw StdException); [|rewrite EC; reflexivity].
    unfold pa_check. rewrite Eb, Ec, Ed, N1, N2, N3, N4. unfold throw_if. cbn [deref_opt bind].
    destruct (len (pa_za i) =? len (pa_awr i)) eqn:T1; [|reflexivity]. cbn [negb bind].
    destruct (eg_NES (pa_eszg i) =? ad_n (pa_lhnm i)) eqn:T2; [|reflexivity]. destruct (eg_NES (pa_eszg i) =? sp_NES b) eqn:T3; [|reflexivity]. cbn [negb orb bind].
    replace (0 <? match pa_selas i with Some _ => 3 | None => 1 end) with true by (destruct (pa_selas i); reflexivity).
    destruct (ss_NSSH a =? bl_n c) eqn:T4; [|reflexivity]. destruct (ss_NSSH a =? ez_NSSH d) eqn:T5; [|reflexivity]. destruct (ss_NSSH a =? len (pa_eion i)) eqn:T6; [|reflexivity]. cbn [negb orb bind].
    destruct (pa_selas i) as [o|] eqn:Eo.
    + change (3 =? 3) with true. cbn [deref_opt bind]. destruct (ez_NE d =? two_N o) eqn:T7; [|reflexivity]. exfalso. apply HC. split; [lia|]. split; [lia|].
      split; [|split]; intros; repeat match goal with H : _ = Some _, H' : _ = Some _ |- _ => rewrite H in H'; apply some_inj in H'; subst end; lia.
    + exfalso. apply HC. split; [lia|]. split; [lia|]. split; [|split]; intros; try congruence; repeat match goal with H : _ = Some _, H' : _ = Some _ |- _ => rewrite H in H'; apply some_inj in H'; subst end; lia.
  - assert (ES : exists n, pa_sizes i = Ok n /\ n_nepr n = 0 /\ n_nes n = eg_NES (pa_eszg i)) by (unfold pa_sizes; rewrite Ea; cbn [has_value]; eexists; split; [reflexivity|split; reflexivity]).
    destruct ES as (n & ES & N1 & N2). rewrite ES. cbn [bind]. assert (EC : pa_check i n = Throw StdException); [|rewrite EC; reflexivity].
    unfold pa_check. rewrite Eb, N1, N2. unfold throw_if. destruct (len (pa_za i) =? len (pa_awr i)) eqn:T1; [|reflexivity]. cbn [negb bind].
    destruct (eg_NES (pa_eszg i) =? ad_n (pa_lhnm i)) eqn:T2; [|reflexivity]. exfalso. apply HC. split; [lia|]. split; [lia|]. split; [|split]; intros; congruence.
Qed.
Print Assumptions C22_photoatomic_rejected.

(** The blocks of a valid table are consistent. *)
Definition build_in bm (v : photoV) (f : paIn -> paIn) : outcome paTable :=
  t <- pa_build bm ["p"]%char v ;;
  pa_of bm ["p"]%char (f (PaIn (vp_z v) (vp_za v) (vp_awr v) (pt_eszg t) (pt_jinc t) (pt_jcoh t) (pt_lhnm t) (pt_jflo t) (pt_eps t) (pt_swd t) (pt_subsh t) (pt_sphel t) (pt_xprob t) (pt_esze t) (pt_excit t) (pt_elas t)
    (pt_eion t) (pt_breme t) (pt_breml t) (pt_selas t))).
Example C22_photoatomic_ex :
  (t <- build_in Debug ex_photo (fun i => i) ;; Ok (len (d_xss (pt_data t)))) = Ok 129
  /\ (t <- build_in Debug ex_photo (fun i => PaIn (pa_z i) (pa_za i) (pa_awr i) (pa_eszg i) (pa_jinc i) (pa_jcoh i) (pa_lhnm i) (pa_jflo i) (pa_eps i) (pa_swd i) (pa_subsh i) (pa_sphel i) (pa_xprob i) (pa_esze i) (pa_excit i) (pa_elas i)
        (tl (pa_eion i)) (pa_breme i) (pa_breml i) (pa_selas i)) ;; Ok (len (d_xss (pt_data t)))) = Throw StdException.
Proof. split; vm_compute; reflexivity. Qed.

(** Outside these domains: more ZA than atomic weight ratios are read beyond the end of the latter before the sizes are
    compared; SUBSH without the other electron blocks dereferences an empty optional; EPS without SWD is written
    but not available in the table, and SWD without EPS cannot be read. *)
Theorem C25_photoatomic_undefined_refuted :
  (forall bm zaid i, len (pa_awr i) < len (pa_za i) -> len (pa_za i) <= 16 -> pa_of bm zaid i = UB)
  /\ (forall bm zaid i o, len (pa_za i) = len (pa_awr i) -> len (pa_za i) <= 16 -> pa_subsh i = Some o -> pa_esze i = None -> pa_of bm zaid i = UB).
Proof.
  split.
  - intros bm zaid i H H16. unfold pa_of, pa_generateData.
    assert (E : forall za awr k iz aw, (length awr < length za + k)%nat -> (length za + k <= length iz)%nat -> (length za + k <= length aw)%nat -> (k <= length awr)%nat -> set_izaw k za awr iz aw = UB).
    { induction za as [|y za IH]; intros awr k iz aw H1 H2 H3 H4; cbn [length] in *; [lia|]. cbn [set_izaw]. destruct (upd_nth (s32 y) k iz ltac:(lia)) as (iz' & E & L & _). rewrite E. cbn [bind]. unfold nth_or_UB.
      destruct (nth_error awr k) as [a|] eqn:Ea; [|reflexivity]. cbn [bind]. assert (k < length awr)%nat by (apply nth_error_Some; congruence).
      destruct (upd_nth a k aw ltac:(lia)) as (aw' & E' & L' & _). rewrite E'. cbn [bind]. apply IH; lia. }
    rewrite E; [reflexivity| | | |lia]; unfold zeros, dzeros; rewrite ?repeat_length; unfold len in *; lia.
  - intros bm zaid i o H H16 Ho He. unfold pa_of, pa_generateData.
    destruct (set_izaw_short (pa_za i) (pa_awr i) 0 (zeros 16) (dzeros 16)) as (r & Er); [unfold len in *; lia|unfold zeros; rewrite repeat_length; unfold len in *; lia|unfold dzeros; rewrite repeat_length; unfold len in *; lia|].
    rewrite Er. cbn [bind]. unfold pa_sizes. rewrite Ho, He. cbn [has_value deref_opt bind]. destruct (pa_selas i); reflexivity.
Qed.
Print Assumptions C25_photoatomic_undefined_refuted.
Definition drop_eps (i : paIn) := PaIn (pa_z i) (pa_za i) (pa_awr i) (pa_eszg i) (pa_jinc i) (pa_jcoh i) (pa_lhnm i) (pa_jflo i) None (pa_swd i) (pa_subsh i) (pa_sphel i) (pa_xprob i) (pa_esze i) (pa_excit i) (pa_elas i)
  (pa_eion i) (pa_breme i) (pa_breml i) (pa_selas i).
Definition drop_swd (i : paIn) := PaIn (pa_z i) (pa_za i) (pa_awr i) (pa_eszg i) (pa_jinc i) (pa_jcoh i) (pa_lhnm i) (pa_jflo i) (pa_eps i) None (pa_subsh i) (pa_sphel i) (pa_xprob i) (pa_esze i) (pa_excit i) (pa_elas i)
  (pa_eion i) (pa_breme i) (pa_breml i) (pa_selas i).
Example C25_shells_lost : (t <- build_in Release ex_photo drop_swd ;; Ok (has_value (pt_eps t), has_value (pt_swd t))) = Ok (false, false)
  /\ (t <- build_in Release ex_photo drop_eps ;; Ok (has_value (pt_eps t), has_value (pt_swd t))) = Throw StdException.
Proof. split; vm_compute; reflexivity. Qed.
