(** Angular distributions: [base::TabulatedProbabilityDistribution],
    [continuous::AngularDistributionData] and its components. *)
From Coq Require Import ZArith Bool List Lia Permutation Sorted.
From Coq Require Import ZifyBool ZifyNat.
From Verif Require Export BlockWithLocators.
Import ListNotations.
Open Scope Z_scope.

(** * TabulatedProbabilityDistribution *)

(** src/ACEtk/base/TabulatedProbabilityDistribution/src/generateXSS.hpp:1-17 *)
Definition tp_generateXSS (interpolation : Z) (values pdf cdf : list double)
    (data : list (list double)) : outcome (list double) :=
  c <- cd_generateXSS (values :: pdf :: cdf :: data) ;; Ok (dbl interpolation :: c).

(** src/ACEtk/base/TabulatedProbabilityDistribution.hpp:41-79 *)
Definition tp_interpolation bm (v : view) : outcome Z := ixss bm v 1.
Definition tp_numberValues bm (v : view) : outcome Z := ixss_size bm v 2.
Definition tp_values bm (v : view) : outcome (list double) :=
  n <- tp_numberValues bm v ;; xssr bm v 3 n.
Definition tp_pdf bm (v : view) : outcome (list double) :=
  n <- tp_numberValues bm v ;; xssr bm v (3 + n) n.
Definition tp_cdf bm (v : view) : outcome (list double) :=
  n <- tp_numberValues bm v ;; xssr bm v (3 + 2 * n) n.
Definition tp_column bm (v : view) (index : Z) : outcome (list double) :=
  n <- tp_numberValues bm v ;; xssr bm v (3 + (3 + index) * n) n.

(** .../ctor.hpp:54-58, verifySize.hpp:1-13 *)
Definition tp_make bm (v : view) : outcome view :=
  n <- tp_numberValues bm v ;; _ <- verify_at_least v (u32 (3 * n + 2)) ;; Ok v.

Definition tp_layout (interpolation : Z) (values pdf cdf : list double) (data : list (list double)) :=
  dbl interpolation :: cd_layout (len values) (values :: pdf :: cdf :: data).

Definition tp_shows bm v (interpolation : Z) (values pdf cdf : list double) (data : list (list double)) : Prop :=
  tp_interpolation bm v = Ok interpolation /\ tp_numberValues bm v = Ok (len values)
  /\ tp_values bm v = Ok values /\ tp_pdf bm v = Ok pdf /\ tp_cdf bm v = Ok cdf
  /\ forall k c, nth_error data k = Some c -> tp_column bm v (Z.of_nat k) = Ok c.

Lemma tp_generateXSS_inv interp x p c data l : tp_generateXSS interp x p c data = Ok l ->
  all_len (len x) (x :: p :: c :: data) /\ l = tp_layout interp x p c data.
Proof.
  unfold tp_generateXSS. destruct (cd_generateXSS _) as [l0| |] eqn:E; try discriminate.
  apply cd_generateXSS_inv in E as (ne & _ & A & ->). cbn. intros H. injection H as <-.
  inversion A as [|? ? Hx A1]; subst. split; [exact A|reflexivity].
Qed.

Lemma tp_generateXSS_ok interp x p c data : all_len (len x) (x :: p :: c :: data) ->
  tp_generateXSS interp x p c data = Ok (tp_layout interp x p c data).
Proof.
  intros A. unfold tp_generateXSS. rewrite (cd_generateXSS_ok x) by exact A. reflexivity.
Qed.

Section TP.
  Variables (bm : build) (v : view) (interp : Z) (x p c : list double) (data : list (list double)).
  Hypothesis A : all_len (len x) (x :: p :: c :: data).
  Hypothesis Hi : - 2 ^ 31 <= interp < 2 ^ 31.
  Hypothesis Hv : has v (tp_layout interp x p c data).

  Lemma tp_bounds : 2 + 3 * len x + len data * len x < 2 ^ 31 /\ 2 + 3 * len x + len data * len x <= len (tp_layout interp x p c data).
  Proof.
    pose proof (has_bounds _ _ Hv) as B. unfold tp_layout, cd_layout in *.
    rewrite !len_cons, (len_concat (len x)) in * by exact A. rewrite !len_cons in *.
    pose proof (len_nonneg x). pose proof (len_nonneg data). nia.
  Qed.

  Lemma tp_N_has : tp_numberValues bm v = Ok (len x).
  Proof.
    pose proof tp_bounds as B. pose proof (len_nonneg x). pose proof (len_nonneg data).
    apply (ixss_size_at _ _ [dbl interp] _ (concat (x :: p :: c :: data))); [exact Hv|reflexivity|nia].
  Qed.

  Lemma tp_xssr k l : nth_error (x :: p :: c :: data) k = Some l ->
    forall i, i = 3 + Z.of_nat k * len x -> xssr bm v i (len x) = Ok l.
  Proof.
    intros Hk i ->. pose proof (concat_split _ _ _ Hk) as Ec.
    assert (Hl : len l = len x).
    { apply nth_error_In in Hk. unfold all_len in A. rewrite Forall_forall in A. apply A; exact Hk. }
    apply (xssr_has _ _ (dbl interp :: dbl (len x) :: concat (firstn k (x :: p :: c :: data))) l
             (concat (skipn (S k) (x :: p :: c :: data)))).
    - cbn [app]. rewrite <- Ec. exact Hv.
    - rewrite !len_cons, (len_concat (len x)) by (apply all_len_firstn; exact A).
      rewrite (len_firstn_nth _ _ _ Hk). ring.
    - congruence.
  Qed.

  Lemma tp_has : tp_make bm v = Ok v /\ tp_shows bm v interp x p c data.
  Proof.
    pose proof tp_bounds as B. pose proof (len_nonneg x). pose proof (len_nonneg data).
    split; [|split; [|split; [|split; [|split; [|split]]]]].
    - unfold tp_make. rewrite tp_N_has. cbn [bind]. rewrite u32_small by nia.
      rewrite (verify_at_least_has _ _ _ Hv) by nia. reflexivity.
    - apply (ixss_at _ _ [] _ (cd_layout (len x) (x :: p :: c :: data))); [exact Hv|reflexivity|exact Hi].
    - exact tp_N_has.
    - unfold tp_values. rewrite tp_N_has. cbn [bind]. apply (tp_xssr 0 x eq_refl). change (Z.of_nat 0) with 0; lia.
    - unfold tp_pdf. rewrite tp_N_has. cbn [bind]. apply (tp_xssr 1 p eq_refl). change (Z.of_nat 1) with 1; lia.
    - unfold tp_cdf. rewrite tp_N_has. cbn [bind]. apply (tp_xssr 2 c eq_refl). change (Z.of_nat 2) with 2; lia.
    - intros k l Hk. unfold tp_column. rewrite tp_N_has. cbn [bind].
      apply (tp_xssr (3 + k) l Hk). replace (Z.of_nat (3 + k)) with (3 + Z.of_nat k) by lia. ring.
  Qed.
End TP.

(** * Angular distributions for one incident energy *)

(** The variant of src/ACEtk/continuous/AngularDistributionData.hpp:33-35:
    IsotropicAngularDistribution, EquiprobableAngularBins,
    TabulatedAngularDistribution.  T is [view] for the objects and
    [list double] for their XSS content.  All carry the incident energy outside
    the XSS data. *)
Inductive angular (T : Type) :=
| AIso (e : double)
| AEqui (e : double) (x : T)
| ATab (e : double) (x : T).
Arguments AIso {T} _. Arguments AEqui {T} _ _. Arguments ATab {T} _ _.

(** energy(): IsotropicAngularDistribution.hpp:34, EquiprobableAngularBins.hpp:38,
    TabulatedAngularDistribution.hpp:40 *)
Definition ang_energy {T} (d : angular T) : double :=
  match d with AIso e | AEqui e _ | ATab e _ => e end.

(** EquiprobableAngularBins( energy, begin, end ),
    src/ACEtk/continuous/EquiprobableAngularBins/src/ctor.hpp:29-34,
    verifySize.hpp:1-16 (the distance is converted to size_t) *)
Definition eq_make (e : double) (v : view) : outcome (angular view) :=
  _ <- throw_if (u64 (vend v - vbeg v) <? 33) StdException ;; Ok (AEqui e v).
(** EquiprobableAngularBins( energy, cosines ), ctor.hpp:15-20 *)
Definition eq_of (e : double) (cosines : list double) : outcome (angular view) :=
  _ <- throw_if (len cosines <? 33) StdException ;; Ok (AEqui e (own cosines)).
(** cosines(), EquiprobableAngularBins.hpp:48-51 *)
Definition eq_cosines bm (v : view) : outcome (list double) := xssr bm v 1 (32 + 1).

(** TabulatedAngularDistribution( energy, begin, end ),
    src/ACEtk/continuous/TabulatedAngularDistribution/src/ctor.hpp:36-39 *)
Definition ta_make bm (e : double) (v : view) : outcome (angular view) :=
  w <- tp_make bm v ;; Ok (ATab e w).

(** Content of the objects: value.begin(), value.end() *)
Definition ang_content (d : angular view) : outcome (angular (list double)) :=
  match d with
  | AIso e => Ok (AIso e)
  | AEqui e v => l <- xss_all v ;; Ok (AEqui e l)
  | ATab e v => l <- xss_all v ;; Ok (ATab e l)
  end.
Definition ang_body (d : angular (list double)) : list double :=
  match d with AIso _ => [] | AEqui _ l | ATab _ l => l end.

(** * AngularDistributionData *)

(** The loop of src/ACEtk/continuous/AngularDistributionData/src/generateXSS.hpp:15-52.
    [xss[index + ne] *= -1] is exact negation. *)
Fixpoint an_append (ne : nat) (locb : Z) (index : nat) (ds : list (angular (list double)))
    (xss : list double) : outcome (list double) :=
  match ds with
  | [] => Ok xss
  | d :: r =>
      xss <- upd index (ang_energy d) xss ;;
      xss <- (match d with
              | AIso _ => upd (index + ne) (dbl 0) xss
              | AEqui _ _ => upd (index + ne) (dbl (u64 (len xss + locb))) xss
              | ATab _ _ => upd (index + ne) (SFopp (dbl (u64 (len xss + locb)))) xss
              end) ;;
      an_append ne locb (S index) r (xss ++ ang_body d)
  end.

(** generateXSS, .../generateXSS.hpp:1-55.  [srt] is [std::sort] with the
    comparison of lines 10-13: any function meeting [sort_contract] below. *)
Definition an_generateXSS (srt : list (angular (list double)) -> list (angular (list double)))
    (locb : Z) (ds : list (angular (list double))) : outcome (list double) :=
  let ne := length ds in
  let ds := srt ds in
  xss <- upd 0 (dbl (Z.of_nat ne)) (repeat (dbl 0) (1 + 2 * ne)) ;;
  an_append ne locb 1 ds xss.

(** What the C++ standard says about std::sort: if the comparison is a strict
    weak ordering (no NaN energy) the result is a permutation of the input in
    which no element compares less than an earlier one.  Stability is not
    guaranteed. *)
Definition energy_le (a b : angular (list double)) : Prop :=
  SFltb (ang_energy b) (ang_energy a) = false.
Definition sort_contract (srt : list (angular (list double)) -> list (angular (list double))) : Prop :=
  forall l, Forall (fun d => ang_energy d <> S754_nan) l ->
    Permutation l (srt l) /\ StronglySorted energy_le (srt l).

(** src/ACEtk/continuous/AngularDistributionData.hpp:28-43 *)
Record angularData := AngularData {
  an_locb : Z; an_v : view; an_values : columnData; an_dists : list (angular view) }.

(** verifyIncidentEnergyIndex, .../verifyIncidentEnergyIndex.hpp:1-12 *)
Definition an_verify bm (values : columnData) (index : Z) : outcome unit :=
  if debug bm then n <- cd_N bm values ;; verifyIndex (u64 index) 1 n else Ok tt.

(** incidentEnergy( index ), AngularDistributionData.hpp:81-87 *)
Definition an_incidentEnergy bm (values : columnData) (index : Z) : outcome double :=
  _ <- an_verify bm values index ;; cd_value bm values 1 index.
(** LOCC( index ), AngularDistributionData.hpp:105-111: double converted to int *)
Definition an_LOCC bm (values : columnData) (index : Z) : outcome Z :=
  _ <- an_verify bm values index ;; x <- cd_value bm values 2 index ;; trunc_to_int x.
(** relativeDistributionLocator( index ), AngularDistributionData.hpp:146-150 *)
Definition an_relative bm (locb : Z) (values : columnData) (index : Z) : outcome Z :=
  l <- an_LOCC bm values index ;;
  Ok (if l =? 0 then 0 else u64 (Z.abs l - locb + 1)).

(** The search for the next locator, .../generateBlocks.hpp:22-31 *)
Fixpoint an_right bm (v : view) (locb : Z) (values : columnData) (locator : Z) (nexts : list Z) : outcome Z :=
  match nexts with
  | [] => Ok (vend v)
  | next :: r =>
      l <- an_relative bm locb values next ;;
      if locator <? l then iter bm v l else an_right bm v locb values locator r
  end.

(** Body of the loop of .../generateBlocks.hpp:10-41 *)
Definition an_distribution bm (v : view) (locb : Z) (values : columnData) (ne index : Z) : outcome (angular view) :=
  l <- an_LOCC bm values index ;;
  incident <- an_incidentEnergy bm values index ;;
  if l =? 0 then Ok (AIso incident)
  else
    locator <- an_relative bm locb values index ;;
    left <- iter bm v locator ;;
    right <- an_right bm v locb values locator (seqZ (index + 1) (Z.to_nat (ne - index))) ;;
    if l <? 0 then ta_make bm incident (sub v left right)
    else eq_make incident (sub v left right).

(** generateBlocks, .../generateBlocks.hpp:1-42 *)
Definition an_generateBlocks bm (locb : Z) (v : view) : outcome angularData :=
  ne <- ixss_size bm v 1 ;;
  end_ <- iter bm v (2 * ne + 2) ;;
  values <- cd_make (sub v (vbeg v) end_) 2 ;;
  n <- cd_N bm values ;;
  ds <- mapM (an_distribution bm v locb values n) (seqZ 1 (Z.to_nat n)) ;;
  Ok (AngularData locb v values ds).

(** AngularDistributionData( distributions, locb ), .../ctor.hpp:63-70 *)
Definition an_of bm srt (ds : list (angular (list double))) (locb : Z) : outcome angularData :=
  l <- an_generateXSS srt locb ds ;; an_generateBlocks bm locb (own l).

(** AngularDistributionData( locb, begin, end ), .../ctor.hpp:79-84, verifySize.hpp:1-13 *)
Definition an_make bm (locb : Z) (v : view) : outcome angularData :=
  o <- an_generateBlocks bm locb v ;;
  n <- cd_N bm (an_values o) ;;
  _ <- verify_at_least v (u32 (1 + 2 * n)) ;;
  Ok o.

(** NE(), incidentEnergies(), distribution( index ): AngularDistributionData.hpp:58-71, 185-191 *)
Definition an_NE bm o : outcome Z := cd_N bm (an_values o).
Definition an_incidentEnergies bm o : outcome (list double) := cd_column bm (an_values o) 1.
Definition an_datum bm o (index : Z) : outcome (angular view) :=
  _ <- an_verify bm (an_values o) index ;; at_ (an_dists o) index.

(** ** Specification *)

Definition locc_of (d : angular (list double)) (base : Z) : Z :=
  match d with AIso _ => 0 | AEqui _ _ => base | ATab _ _ => - base end.

Fixpoint loccs (base : Z) (ds : list (angular (list double))) : list Z :=
  match ds with [] => [] | d :: r => locc_of d base :: loccs (base + len (ang_body d)) r end.

Definition bodies (ds : list (angular (list double))) : list double := concat (map ang_body ds).

Definition an_layout (locb : Z) (ds : list (angular (list double))) : list double :=
  dbl (len ds) :: map ang_energy ds
  ++ map dbl (loccs (locb + 1 + 2 * len ds) ds) ++ bodies ds.

(** A distribution content the constructors of the distribution classes accept. *)
Inductive ang_valid : angular (list double) -> Prop :=
| ang_valid_iso e : ang_valid (AIso e)
| ang_valid_equi e cosines : 33 <= len cosines -> ang_valid (AEqui e cosines)
| ang_valid_tab e interp x p c l :
    tp_generateXSS interp x p c [] = Ok l -> - 2 ^ 31 <= interp < 2 ^ 31 ->
    ang_valid (ATab e l).

(** Distribution object [o] is of the same kind as [d], for the same energy, and
    shows the same data. *)
Inductive ang_shows bm : angular view -> angular (list double) -> Prop :=
| shows_iso e : ang_shows bm (AIso e) (AIso e)
| shows_equi e v cosines : eq_cosines bm v = Ok (firstn 33 cosines) ->
    ang_shows bm (AEqui e v) (AEqui e cosines)
| shows_tab e v interp x p c l : tp_generateXSS interp x p c [] = Ok l ->
    tp_shows bm v interp x p c [] -> ang_shows bm (ATab e v) (ATab e l).

Lemma bodies_app a b : bodies (a ++ b) = bodies a ++ bodies b.
Proof. unfold bodies. rewrite map_app, concat_app. reflexivity. Qed.
Lemma bodies_cons d r : bodies (d :: r) = ang_body d ++ bodies r.
Proof. reflexivity. Qed.
Lemma length_loccs base ds : length (loccs base ds) = length ds.
Proof. revert base; induction ds as [|d r IH]; intros base; cbn; [reflexivity|]. rewrite IH; reflexivity. Qed.
Lemma loccs_app base a b : loccs base (a ++ b) = loccs base a ++ loccs (base + len (bodies a)) b.
Proof.
  revert base; induction a as [|d a IH]; intros base; cbn [app loccs].
  - change (bodies []) with (@nil double). rewrite len_nil, Z.add_0_r. reflexivity.
  - rewrite IH, bodies_cons, len_app, Z.add_assoc. reflexivity.
Qed.

Lemma ang_valid_nonempty d : ang_valid d -> (forall e, d <> AIso e) -> 0 < len (ang_body d).
Proof.
  intros [e|e l Hl|e i x p c l Hg _] H; [exfalso; apply (H e); reflexivity| |]; cbn [ang_body].
  - lia.
  - apply tp_generateXSS_inv in Hg as [_ ->]. unfold tp_layout. rewrite len_cons. nonneg. lia.
Qed.

Lemma len_an_layout locb ds : len (an_layout locb ds) = 1 + 2 * len ds + len (bodies ds).
Proof.
  unfold an_layout. rewrite len_cons, !len_app, !len_map. unfold len at 2. rewrite length_loccs.
  unfold len; lia.
Qed.

Lemma upd_at {A} k (l1 : list A) y l2 x l : l = l1 ++ y :: l2 -> k = length l1 ->
  upd k x l = Ok (l1 ++ x :: l2).
Proof. intros -> ->. apply upd_mid. Qed.

Lemma an_append_spec ne locb n0 es ls data ds :
  length es = length ls -> (length es + length ds = ne)%nat -> 0 <= locb ->
  locb + 1 + 2 * Z.of_nat ne + len data + len (bodies ds) < 2 ^ 53 ->
  an_append ne locb (S (length es)) ds
    (n0 :: es ++ repeat (dbl 0) (length ds) ++ ls ++ repeat (dbl 0) (length ds) ++ data)
  = Ok (n0 :: (es ++ map ang_energy ds) ++ ls ++
        map dbl (loccs (locb + 1 + 2 * Z.of_nat ne + len data) ds) ++ data ++ bodies ds).
Proof.
  intros Hls Hne Hlocb. revert es ls data Hls Hne.
  induction ds as [|d ds IH]; intros es ls data Hls Hne Hb.
  - cbn. rewrite !app_nil_r. reflexivity.
  - cbn [an_append length repeat] in *.
    rewrite (upd_at _ (n0 :: es) (dbl 0)
               (repeat (dbl 0) (length ds) ++ ls ++ (dbl 0 :: repeat (dbl 0) (length ds)) ++ data)) by (cbn; las).
    cbn [bind].
    set (n := locb + 1 + 2 * Z.of_nat ne + len data) in *.
    set (xss1 := (n0 :: es) ++ ang_energy d :: repeat (dbl 0) (length ds) ++ ls ++ (dbl 0 :: repeat (dbl 0) (length ds)) ++ data).
    pose proof (len_nonneg data). pose proof (len_nonneg (bodies (d :: ds))).
    assert (L : u64 (len xss1 + locb) = n).
    { unfold xss1, n. rewrite !len_app, !len_cons, !len_app, !len_cons, !len_repeat.
      unfold len. rewrite u64_small; unfold len in *; lia. }
    assert (U : forall x, upd (S (length es) + ne) x xss1
               = Ok (((n0 :: es) ++ [ang_energy d] ++ repeat (dbl 0) (length ds) ++ ls) ++ x :: repeat (dbl 0) (length ds) ++ data)).
    { intros x. apply (upd_at _ _ (dbl 0)).
      - unfold xss1. las.
      - cbn [length app]. rewrite !app_length. cbn [length]. rewrite app_length, repeat_length. lia. }
    assert (E : (match d with
              | AIso _ => upd (S (length es) + ne) (dbl 0) xss1
              | AEqui _ _ => upd (S (length es) + ne) (dbl (u64 (len xss1 + locb))) xss1
              | ATab _ _ => upd (S (length es) + ne) (SFopp (dbl (u64 (len xss1 + locb)))) xss1
              end) = Ok (((n0 :: es) ++ [ang_energy d] ++ repeat (dbl 0) (length ds) ++ ls) ++ dbl (locc_of d n) :: repeat (dbl 0) (length ds) ++ data)).
    { destruct d; rewrite ?L, U; cbn [locc_of]; try reflexivity.
      rewrite dbl_opp by (unfold n; lia). reflexivity. }
    rewrite E. cbn [bind].
    specialize (IH (es ++ [ang_energy d]) (ls ++ [dbl (locc_of d n)]) (data ++ ang_body d)).
    rewrite !app_length in IH. cbn [length] in IH.
    replace (length es + 1)%nat with (S (length es)) in IH by lia.
    replace ((((n0 :: es) ++ [ang_energy d] ++ repeat (dbl 0) (length ds) ++ ls) ++ dbl (locc_of d n) :: repeat (dbl 0) (length ds) ++ data) ++ ang_body d)
      with (n0 :: (es ++ [ang_energy d]) ++ repeat (dbl 0) (length ds) ++ (ls ++ [dbl (locc_of d n)]) ++ repeat (dbl 0) (length ds) ++ data ++ ang_body d) by las.
    rewrite bodies_cons, len_app in Hb.
    rewrite IH; [|lia|lia|rewrite len_app; lia].
    cbn [loccs map]. rewrite bodies_cons, len_app. unfold n. rewrite Z.add_assoc. f_equal. las.
Qed.

Lemma an_generateXSS_ok srt locb ds :
  length (srt ds) = length ds -> 0 <= locb ->
  locb + 1 + 2 * len ds + len (bodies (srt ds)) < 2 ^ 53 ->
  an_generateXSS srt locb ds = Ok (an_layout locb (srt ds)).
Proof.
  intros Hl Hb Hs. unfold an_generateXSS. cbn [Nat.add repeat upd bind].
  pose proof (an_append_spec (length ds) locb (dbl (Z.of_nat (length ds))) [] [] [] (srt ds) eq_refl) as H.
  cbn [length app Nat.add] in H. rewrite app_nil_r, Hl in H.
  rewrite <- repeat_app in H.
  replace (2 * length ds)%nat with (length ds + length ds)%nat by lia.
  rewrite H; [|reflexivity|exact Hb|change (@len double []) with 0; unfold len in *; lia].
  assert (EL : len (srt ds) = Z.of_nat (length ds)) by (unfold len; rewrite Hl; reflexivity).
  unfold an_layout. rewrite EL. change (@len double []) with 0. rewrite Z.add_0_r. reflexivity.
Qed.

Section AN.
  Variables (bm : build) (v : view) (locb : Z) (ds : list (angular (list double))).
  Hypothesis Hv : has v (an_layout locb ds).
  Hypothesis Hlocb : 1 <= locb.
  Hypothesis Hsize : locb + len (an_layout locb ds) <= 2 ^ 31.
  Hypothesis Hvalid : Forall ang_valid ds.

  Definition an_vv : view := sub v (vbeg v) (vbeg v + 1 + 2 * len ds).
  Definition an_cd : columnData := ColumnData an_vv 2.

  Lemma an_bounds : 0 <= len ds /\ 0 <= len (bodies ds) /\ locb + 1 + 2 * len ds + len (bodies ds) <= 2 ^ 31.
  Proof. rewrite len_an_layout in Hsize. nonneg. lia. Qed.

  Lemma an_all_len : all_len (len ds) [map ang_energy ds; map dbl (loccs (locb + 1 + 2 * len ds) ds)].
  Proof.
    repeat constructor; rewrite len_map; [reflexivity|]. unfold len. rewrite length_loccs. reflexivity.
  Qed.

  Lemma an_vv_has : content an_vv (cd_layout (len ds) [map ang_energy ds; map dbl (loccs (locb + 1 + 2 * len ds) ds)]).
  Proof.
    unfold an_vv.
    assert (L : len (cd_layout (len ds) [map ang_energy ds; map dbl (loccs (locb + 1 + 2 * len ds) ds)]) = 1 + 2 * len ds).
    { unfold cd_layout. rewrite len_cons, (len_concat _ _ an_all_len). rewrite !len_cons, len_nil. lia. }
    apply (sub_content v [] _ (bodies ds)).
    - apply (has_eq _ _ _ Hv). unfold an_layout, cd_layout. las.
    - rewrite len_nil; lia.
    - rewrite L, len_nil; lia.
  Qed.

  Let Hvv := content_has _ _ an_vv_has.

  Lemma an_N_has : cd_N bm an_cd = Ok (len ds).
  Proof. pose proof an_bounds. apply (cd_N_has bm _ _ _ Hvv); lia. Qed.

  Lemma an_verify_has i : 1 <= i <= len ds -> an_verify bm an_cd i = Ok tt.
  Proof.
    intros Hi. pose proof an_bounds. unfold an_verify. destruct (debug bm) eqn:E; [|reflexivity].
    rewrite an_N_has. cbn [bind]. rewrite u64_small by lia.
    pose proof (check_verifyIndex Debug i 1 (len ds) Hi) as C. exact C.
  Qed.

  Lemma an_energy_has pre d post i : ds = pre ++ d :: post -> i = len pre + 1 ->
    an_incidentEnergy bm an_cd i = Ok (ang_energy d).
  Proof.
    intros E ->. unfold an_incidentEnergy. pose proof an_bounds as B.
    rewrite an_verify_has by (rewrite E, len_app, len_cons; nonneg; lia). cbn [bind].
    apply (cd_value_has bm _ _ _ an_all_len Hvv ltac:(lia) 2 0 (map ang_energy ds) (length pre)).
    - reflexivity.
    - rewrite E, map_app. cbn [map]. rewrite <- (map_length ang_energy pre). apply nth_error_mid.
    - reflexivity.
    - reflexivity.
  Qed.

  Lemma an_LOCC_has pre d post i : ds = pre ++ d :: post -> i = len pre + 1 ->
    an_LOCC bm an_cd i = Ok (locc_of d (locb + 1 + 2 * len ds + len (bodies pre))).
  Proof.
    intros E ->. unfold an_LOCC. pose proof an_bounds as B.
    rewrite an_verify_has by (rewrite E, len_app, len_cons; nonneg; lia). cbn [bind].
    rewrite (cd_value_has bm _ _ _ an_all_len Hvv ltac:(lia) 2 1
       (map dbl (loccs (locb + 1 + 2 * len ds) ds)) (length pre)
       (dbl (locc_of d (locb + 1 + 2 * len ds + len (bodies pre))))).
    - cbn [bind]. apply trunc_to_int_dbl.
      assert (Lb : len (bodies ds) = len (bodies pre) + len (ang_body d) + len (bodies post)).
      { rewrite E, bodies_app, bodies_cons, !len_app. lia. }
      assert (Hd : ang_valid d). { rewrite Forall_forall in Hvalid. apply Hvalid. rewrite E. apply in_elt. }
      pose proof (len_nonneg (bodies pre)); pose proof (len_nonneg (bodies post)); pose proof (len_nonneg ds).
      destruct d; cbn [locc_of].
      + lia.
      + pose proof (ang_valid_nonempty _ Hd ltac:(discriminate)). lia.
      + pose proof (ang_valid_nonempty _ Hd ltac:(discriminate)). lia.
    - reflexivity.
    - rewrite E at 2. rewrite loccs_app, map_app. cbn [loccs map].
      rewrite <- (length_loccs (locb + 1 + 2 * len ds) pre), <- (map_length dbl). apply nth_error_mid.
    - reflexivity.
    - reflexivity.
  Qed.

  Lemma an_relative_has pre d post i : ds = pre ++ d :: post -> i = len pre + 1 ->
    an_relative bm locb an_cd i
    = Ok (match d with AIso _ => 0 | _ => 1 + 2 * len ds + len (bodies pre) + 1 end).
  Proof.
    intros E Hi. unfold an_relative. rewrite (an_LOCC_has _ _ _ _ E Hi). cbn [bind].
    pose proof an_bounds as B.
    assert (Lb : len (bodies ds) = len (bodies pre) + len (ang_body d) + len (bodies post)).
    { rewrite E, bodies_app, bodies_cons, !len_app. lia. }
    pose proof (len_nonneg (bodies pre)); pose proof (len_nonneg (bodies post)); pose proof (len_nonneg ds);
      pose proof (len_nonneg (ang_body d)).
    destruct d; cbn [locc_of]; [reflexivity| |].
    - destruct (Z.eqb_spec (locb + 1 + 2 * len ds + len (bodies pre)) 0); [lia|].
      f_equal. rewrite u64_small; lia.
    - destruct (Z.eqb_spec (- (locb + 1 + 2 * len ds + len (bodies pre))) 0); [lia|].
      f_equal. rewrite u64_small; lia.
  Qed.

  Lemma an_energies_has : cd_column bm an_cd 1 = Ok (map ang_energy ds).
  Proof.
    pose proof an_bounds. 
    exact (cd_column_has bm _ _ _ an_all_len Hvv ltac:(lia) 2 0 _ 1 eq_refl eq_refl).
  Qed.

  Lemma an_right_has locator pre post :
    ds = pre ++ post -> 0 < locator < 1 + 2 * len ds + len (bodies pre) + 1 ->
    exists r, an_right bm v locb an_cd locator (seqZ (len pre + 1) (length post)) = Ok r
      /\ ((r = vbeg v + 1 + 2 * len ds + len (bodies pre)) \/ (r = vend v /\ bodies post = [])).
  Proof.
    revert pre; induction post as [|d post IH]; intros pre E Hloc; cbn [length seqZ an_right].
    - exists (vend v). auto.
    - rewrite (an_relative_has _ _ _ _ E eq_refl). cbn [bind].
      assert (E' : ds = (pre ++ [d]) ++ post) by (rewrite E; las).
      destruct d as [e|e l|e l].
      + destruct (Z.ltb_spec locator 0); [lia|].
        destruct (IH (pre ++ [AIso e]) E') as (r & Hr & HR).
        { rewrite bodies_app. cbn. rewrite app_nil_r. exact Hloc. }
        exists r. rewrite len_app in Hr. change (len [AIso e]) with 1 in Hr. split; [exact Hr|].
        rewrite bodies_app in HR. cbn in HR. rewrite app_nil_r in HR. exact HR.
      + destruct (Z.ltb_spec locator (1 + 2 * len ds + len (bodies pre) + 1)); [|lia].
        pose proof (has_bounds _ _ Hv) as Bv. rewrite len_an_layout in Bv.
        assert (len (bodies pre) <= len (bodies ds)) by (rewrite E, bodies_app, len_app; nonneg; lia).
        rewrite (iter_has _ _ _ _ Hv) by (nonneg; lia). eexists; split; [reflexivity|]. left; lia.
      + destruct (Z.ltb_spec locator (1 + 2 * len ds + len (bodies pre) + 1)); [|lia].
        pose proof (has_bounds _ _ Hv) as Bv. rewrite len_an_layout in Bv.
        assert (len (bodies pre) <= len (bodies ds)) by (rewrite E, bodies_app, len_app; nonneg; lia).
        rewrite (iter_has _ _ _ _ Hv) by (nonneg; lia). eexists; split; [reflexivity|]. left; lia.
  Qed.

  Variable P : view -> list double -> Prop.
  Hypothesis HPhas : forall w l, P w l -> has w l.
  Hypothesis HP : forall w l, content w l -> P w l.
  Hypothesis HPlast : forall l1 l2, an_layout locb ds = l1 ++ l2 ->
    P (sub v (vbeg v + len l1) (vend v)) l2.

  (** The object shows the same data, and its view shows the same words. *)
  Definition ang_same (o : angular view) (d : angular (list double)) : Prop :=
    ang_shows bm o d /\
    match o, d with
    | AIso _, AIso _ => True
    | AEqui _ w, AEqui _ l | ATab _ w, ATab _ l => P w l
    | _, _ => False
    end.

  Lemma eq_make_has e w l : 33 <= len l -> P w l ->
    exists o, eq_make e w = Ok o /\ ang_same o (AEqui e l).
  Proof.
    intros Hl H. apply HPhas in H as H'. pose proof (has_bounds _ _ H') as B.
    unfold eq_make, throw_if. rewrite u64_small by lia.
    destruct (Z.ltb_spec (vend w - vbeg w) 33); [lia|]. cbn [bind].
    eexists; split; [reflexivity|]. split; [|exact H]. constructor.
    unfold eq_cosines. 
    assert (F : len (firstn 33 l) = 33).
    { unfold len in *. rewrite firstn_length_le by lia. reflexivity. }
    apply (xssr_has _ _ [] (firstn 33 l) (skipn 33 l)).
    - cbn [app]. rewrite firstn_skipn. exact H'.
    - reflexivity.
    - rewrite F. reflexivity.
  Qed.

  Lemma an_distribution_has pre d post i : ds = pre ++ d :: post -> i = len pre + 1 ->
    exists o, an_distribution bm v locb an_cd (len ds) i = Ok o /\ ang_same o d.
  Proof.
    intros E Hi. unfold an_distribution.
    rewrite (an_LOCC_has _ _ _ _ E Hi). cbn [bind].
    rewrite (an_energy_has _ _ _ _ E Hi). cbn [bind].
    rewrite (an_relative_has _ _ _ _ E Hi).
    pose proof an_bounds as B. pose proof (has_bounds _ _ Hv) as Bv. rewrite len_an_layout in Bv.
    assert (Lb : len (bodies ds) = len (bodies pre) + len (ang_body d) + len (bodies post)).
    { rewrite E, bodies_app, bodies_cons, !len_app. lia. }
    assert (Hd : ang_valid d). { rewrite Forall_forall in Hvalid. apply Hvalid. rewrite E. apply in_elt. }
    pose proof (len_nonneg (bodies pre)); pose proof (len_nonneg (bodies post)); pose proof (len_nonneg ds).
    assert (Hright : (forall e, d <> AIso e) ->
      exists r, an_right bm v locb an_cd (1 + 2 * len ds + len (bodies pre) + 1)
                  (seqZ (i + 1) (Z.to_nat (len ds - i))) = Ok r
        /\ P (sub v (vbeg v + 1 + 2 * len ds + len (bodies pre)) r) (ang_body d)).
    { intros Hn. pose proof (ang_valid_nonempty _ Hd Hn) as Hpos.
      assert (E' : ds = (pre ++ [d]) ++ post) by (rewrite E; las).
      assert (Lpd : len (bodies (pre ++ [d])) = len (bodies pre) + len (ang_body d)).
      { rewrite bodies_app, bodies_cons, !len_app. change (bodies []) with (@nil double). rewrite len_nil. lia. }
      destruct (an_right_has (1 + 2 * len ds + len (bodies pre) + 1) (pre ++ [d]) post E' ltac:(lia)) as (r & Hr & HR).
      exists r. rewrite len_app in Hr. change (len [d]) with 1 in Hr.
      replace (i + 1) with (len pre + 1 + 1) by lia.
      replace (Z.to_nat (len ds - i)) with (length post).
      2: { rewrite E, len_app, len_cons, Hi. unfold len. lia. }
      split; [exact Hr|].
      assert (Elay : an_layout locb ds = (dbl (len ds) :: map ang_energy ds
                ++ map dbl (loccs (locb + 1 + 2 * len ds) ds) ++ bodies pre) ++ ang_body d ++ bodies post).
      { unfold an_layout. rewrite E at 5. rewrite bodies_app, bodies_cons. las. }
      assert (Ll : len (dbl (len ds) :: map ang_energy ds
                ++ map dbl (loccs (locb + 1 + 2 * len ds) ds) ++ bodies pre) = 1 + 2 * len ds + len (bodies pre)).
      { rewrite len_cons, !len_app, !len_map. unfold len at 2. rewrite length_loccs. unfold len; lia. }
      destruct HR as [HR | [HR Hempty]].
      - apply HP. eapply sub_content; [rewrite <- Elay; exact Hv|rewrite Ll; lia|rewrite Ll; lia].
      - rewrite Hempty, app_nil_r in Elay. pose proof (HPlast _ _ Elay) as HL. rewrite Ll in HL.
        rewrite HR. replace (vbeg v + 1 + 2 * len ds + len (bodies pre)) with (vbeg v + (1 + 2 * len ds + len (bodies pre))) by lia.
        exact HL. }
    assert (Hleft : iter bm v (1 + 2 * len ds + len (bodies pre) + 1)
              = Ok (vbeg v + 1 + 2 * len ds + len (bodies pre))).
    { rewrite (iter_has _ _ _ _ Hv) by (pose proof (len_nonneg (ang_body d)); lia). f_equal; lia. }
    destruct Hd as [e|e l Hl|e interp x p c l Hg Hint]; cbn [locc_of ang_energy ang_body] in *.
    - rewrite Z.eqb_refl. eexists; split; [reflexivity|]. split; [constructor|exact I].
    - destruct (Z.eqb_spec (locb + 1 + 2 * len ds + len (bodies pre)) 0); [lia|]. cbn [bind].
      rewrite Hleft. cbn [bind]. destruct (Hright ltac:(discriminate)) as (r & Hr & HPr).
      rewrite Hr. cbn [bind].
      destruct (Z.ltb_spec (locb + 1 + 2 * len ds + len (bodies pre)) 0); [lia|].
      apply eq_make_has; assumption.
    - destruct (Z.eqb_spec (- (locb + 1 + 2 * len ds + len (bodies pre))) 0); [lia|]. cbn [bind].
      rewrite Hleft. cbn [bind]. destruct (Hright ltac:(discriminate)) as (r & Hr & HPr).
      rewrite Hr. cbn [bind].
      destruct (Z.ltb_spec (- (locb + 1 + 2 * len ds + len (bodies pre))) 0); [|lia].
      unfold ta_make.
      destruct (tp_generateXSS_inv _ _ _ _ _ _ Hg) as [A El].
      pose proof (HPhas _ _ HPr) as Hh. rewrite El in Hh.
      destruct (tp_has bm _ _ _ _ _ _ A Hint Hh) as [Mk Sh].
      rewrite Mk. cbn [bind]. eexists; split; [reflexivity|]. split; [econstructor; eassumption|exact HPr].
  Qed.

  Lemma an_blocks_has : exists o, an_generateBlocks bm locb v = Ok o
    /\ an_v o = v /\ an_locb o = locb /\ an_values o = an_cd /\ Forall2 ang_same (an_dists o) ds.
  Proof.
    pose proof an_bounds as B. pose proof (has_bounds _ _ Hv) as Bv. rewrite len_an_layout in Bv.
    unfold an_generateBlocks.
    rewrite (ixss_size_at _ _ [] (len ds) (map ang_energy ds ++ map dbl (loccs (locb + 1 + 2 * len ds) ds) ++ bodies ds));
      [|exact Hv|reflexivity|lia]. cbn [bind].
    rewrite (iter_has _ _ _ _ Hv) by lia. cbn [bind].
    replace (sub v (vbeg v) (vbeg v + (2 * len ds + 2) - 1)) with an_vv by (unfold an_vv; f_equal; lia).
    rewrite (cd_make_has _ _ _ an_all_len Hvv ltac:(lia) 2 eq_refl). cbn [bind].
    fold an_cd. rewrite an_N_has. cbn [bind].
    destruct (mapM_seq (an_distribution bm v locb an_cd (len ds))
                (fun k o => exists d, nth_error ds k = Some d /\ ang_same o d) (length ds) 1 0) as (os & Hos & Los & Ros).
    { intros k Hk. destruct (nth_error ds k) as [d|] eqn:Ek; [|apply nth_error_None in Ek; lia].
      destruct (nth_split_len _ _ _ Ek) as (pre & post & E & Lpre).
      destruct (an_distribution_has pre d post (1 + Z.of_nat k) E ltac:(unfold len; lia)) as (o & Ho & So).
      exists o. split; [exact Ho|]. exists d. split; [exact Ek|exact So]. }
    replace (Z.to_nat (len ds)) with (length ds) by (unfold len; lia).
    rewrite Hos. cbn [bind]. eexists; split; [reflexivity|]. cbn [an_v an_locb an_values an_dists].
    repeat split.
    clear - Los Ros. cbn [Nat.add] in Ros. revert ds Los Ros. induction os as [|o os IH]; intros ds' Los Ros.
    - destruct ds'; [constructor|discriminate].
    - destruct ds' as [|d ds']; [discriminate|]. constructor.
      + destruct (Ros 0%nat o eq_refl) as (d' & Hd' & S'). injection Hd' as ->. exact S'.
      + apply IH; [cbn in Los; lia|]. intros k x Hk. apply (Ros (S k) x Hk).
  Qed.

  Lemma an_make_has : exists o, an_make bm locb v = Ok o
    /\ an_v o = v /\ an_locb o = locb /\ an_values o = an_cd /\ Forall2 ang_same (an_dists o) ds.
  Proof.
    destruct an_blocks_has as (o & Mo & H1 & H2 & H3 & H4). pose proof an_bounds as B.
    unfold an_make. rewrite Mo. cbn [bind]. rewrite H3, an_N_has. cbn [bind].
    rewrite u32_small by lia. rewrite (verify_at_least_has _ _ _ Hv) by (rewrite len_an_layout; lia).
    exists o. auto.
  Qed.

End AN.

(** ** Round trip *)

Lemma len_bodies_perm a b : Permutation a b -> len (bodies a) = len (bodies b).
Proof.
  induction 1 as [|x a b _ IH|x y a|a b c _ IH1 _ IH2]; rewrite ?bodies_cons, ?len_app; try lia; reflexivity.
Qed.

Lemma Forall2_len {A B} (R : A -> B -> Prop) l1 l2 : Forall2 R l1 l2 -> length l1 = length l2.
Proof. induction 1; cbn; congruence. Qed.

Lemma Forall2_nth {A B} (R : A -> B -> Prop) l1 l2 k b :
  Forall2 R l1 l2 -> nth_error l2 k = Some b -> exists a, nth_error l1 k = Some a /\ R a b.
Proof.
  intros F; revert k; induction F as [|x y l1 l2 H F IH]; intros [|k] Hk; try discriminate; cbn [nth_error] in *.
  - injection Hk as <-. eauto.
  - apply IH; exact Hk.
Qed.

Lemma an_round_trip srt locb ds :
  sort_contract srt -> Forall (fun d => ang_energy d <> S754_nan) ds ->
  Forall ang_valid ds -> 1 <= locb -> locb + 1 + 2 * len ds + len (bodies ds) <= 2 ^ 31 ->
  exists l sorted, an_generateXSS srt locb ds = Ok l
    /\ Permutation ds sorted /\ StronglySorted energy_le sorted
    /\ l = an_layout locb sorted
    /\ (forall bm v, has v l -> exists o, an_make bm locb v = Ok o /\ an_v o = v
          /\ an_NE bm o = Ok (len ds) /\ an_incidentEnergies bm o = Ok (map ang_energy sorted)
          /\ Forall2 (ang_same bm has) (an_dists o) sorted
          /\ forall k d, nth_error sorted k = Some d ->
               exists a, an_datum bm o (Z.of_nat k + 1) = Ok a /\ ang_shows bm a d)
    /\ (forall bm v, content v l -> exists o, an_make bm locb v = Ok o /\ an_v o = v
          /\ Forall2 (ang_same bm content) (an_dists o) sorted)
    /\ (forall bm, len l < max_words -> exists o, an_of bm srt ds locb = Ok o /\ content (an_v o) l).
Proof.
  intros Hs Hnan Hval Hlocb Hsize. destruct (Hs ds Hnan) as [Hp Hsort].
  set (sorted := srt ds) in *.
  assert (Ll : length sorted = length ds) by (symmetry; apply Permutation_length; exact Hp).
  assert (LL : len sorted = len ds) by (unfold len; rewrite Ll; reflexivity).
  pose proof (len_bodies_perm _ _ Hp) as Lb.
  assert (G : an_generateXSS srt locb ds = Ok (an_layout locb sorted)).
  { apply an_generateXSS_ok; [exact Ll|lia|]. fold sorted. lia. }
  assert (Hval' : Forall ang_valid sorted) by (eapply Permutation_Forall; eassumption).
  assert (Hsize' : locb + len (an_layout locb sorted) <= 2 ^ 31) by (rewrite len_an_layout; lia).
  exists (an_layout locb sorted), sorted. split; [exact G|]. split; [exact Hp|]. split; [exact Hsort|].
  split; [reflexivity|]. split; [|split].
  - intros bm v H.
    destruct (an_make_has bm v locb sorted H Hlocb Hsize' Hval' has (fun w l C => C) (fun w l => content_has w l))
      as (o & Mo & Vo & _ & Cd & F).
    { intros l1 l2 El. apply (sub_has_tail v l1 l2); [rewrite <- El; exact H|reflexivity]. }
    assert (N : cd_N bm (an_values o) = Ok (len ds)).
    { rewrite Cd, <- LL. apply (an_N_has bm v locb sorted H Hlocb Hsize'). }
    exists o. split; [exact Mo|]. split; [exact Vo|]. split; [exact N|]. split; [|split; [exact F|]].
    + unfold an_incidentEnergies. rewrite Cd. apply (an_energies_has bm v locb sorted H Hlocb Hsize').
    + intros k d Hk. destruct (Forall2_nth _ _ _ _ _ F Hk) as (a & Ha & S & _).
      exists a. split; [|exact S]. unfold an_datum.
      pose proof (nth_error_len _ _ _ Hk) as Bk.
      rewrite Cd, (an_verify_has bm v locb sorted H Hlocb Hsize') by lia. cbn [bind].
      apply (at_has _ _ _ _ Ha eq_refl). unfold len. rewrite (Forall2_len _ _ _ F).
      rewrite Ll. unfold len in Hsize. lia.
  - intros bm v H.
    destruct (an_make_has bm v locb sorted (content_has _ _ H) Hlocb Hsize' Hval' content content_has (fun w l C => C))
      as (o & Mo & Vo & _ & Cd & F).
    { intros l1 l2 El. apply (sub_content_tail v l1 l2); [rewrite <- El; exact H|reflexivity]. }
    exists o. auto.
  - intros bm Hw. pose proof (own_content _ Hw) as C. unfold an_of. rewrite G. cbn [bind].
    destruct (an_blocks_has bm _ locb sorted (content_has _ _ C) Hlocb Hsize' Hval' content content_has (fun w l C => C))
      as (o & Mo & Vo & _).
    { intros l1 l2 El. apply (sub_content_tail (own (an_layout locb sorted)) l1 l2); [rewrite <- El; exact C|reflexivity]. }
    exists o. rewrite Vo. auto.
Qed.

(** ** A sort that meets the contract *)

Lemma SFltb_trans x d a : x <> S754_nan -> d <> S754_nan -> a <> S754_nan ->
  SFltb d a = true -> SFltb x a = false -> SFltb x d = false.
Proof.
  unfold SFltb. intros Hx Hd Ha.
  destruct x as [sx|sx| |sx mx ex], d as [sd|sd| |sd md ed], a as [sa|sa| |sa ma ea]; try congruence;
    try destruct sx; try destruct sd; try destruct sa; cbn [SFcompare]; try congruence;
  repeat match goal with
  | |- context [Z.compare ?a ?b] => destruct (Z.compare_spec a b)
  end; try congruence; try lia; change (Pos.compare_cont Eq) with Pos.compare;
  repeat match goal with
  | |- context [Pos.compare ?a ?b] => destruct (Pos.compare_spec a b)
  end; cbn [CompOpp]; try congruence; try lia.
Qed.

Fixpoint an_insert (d : angular (list double)) (l : list (angular (list double))) :=
  match l with
  | [] => [d]
  | a :: r => if SFltb (ang_energy d) (ang_energy a) then d :: l else a :: an_insert d r
  end.
Definition an_isort l := fold_right an_insert [] l.

Lemma an_insert_perm d l : Permutation (d :: l) (an_insert d l).
Proof.
  induction l as [|a r IH]; cbn [an_insert]; [constructor; constructor|].
  destruct (SFltb _ _); [reflexivity|]. etransitivity; [apply perm_swap|]. constructor. exact IH.
Qed.
Lemma an_isort_perm l : Permutation l (an_isort l).
Proof.
  induction l as [|d l IH]; cbn [an_isort fold_right]; [constructor|].
  etransitivity; [apply perm_skip, IH|]. apply an_insert_perm.
Qed.

Lemma SFltb_irrefl x : SFltb x x = false.
Proof.
  unfold SFltb. destruct x as [s|s| |s m e]; try destruct s; cbn [SFcompare]; try reflexivity;
  rewrite Z.compare_refl; change (Pos.compare_cont Eq) with Pos.compare; rewrite Pos.compare_refl; reflexivity.
Qed.
Lemma SFltb_asym x y : x <> S754_nan -> y <> S754_nan -> SFltb x y = true -> SFltb y x = false.
Proof.
  intros Hx Hy H. exact (SFltb_trans y x y Hy Hx Hy H (SFltb_irrefl y)).
Qed.

Lemma an_insert_sorted d l : ang_energy d <> S754_nan -> Forall (fun d => ang_energy d <> S754_nan) l ->
  StronglySorted energy_le l -> StronglySorted energy_le (an_insert d l).
Proof.
  intros Hd Hl Hs. induction Hs as [|a r Hr IH Ha]; cbn [an_insert]; [repeat constructor|].
  inversion Hl as [|? ? Hna Hnr]; subst.
  destruct (SFltb (ang_energy d) (ang_energy a)) eqn:E.
  - constructor; [constructor; assumption|]. constructor.
    + unfold energy_le. apply SFltb_asym; assumption.
    + rewrite Forall_forall in Ha, Hnr |- *. intros x Hx. unfold energy_le.
      apply (SFltb_trans _ _ (ang_energy a)); auto. apply Ha; exact Hx.
  - constructor; [apply IH; exact Hnr|].
    apply (Permutation_Forall (an_insert_perm d r)). constructor; [exact E|exact Ha].
Qed.

Lemma an_isort_contract : sort_contract an_isort.
Proof.
  intros l H. split; [apply an_isort_perm|].
  induction H as [|d l Hd Hl IH]; cbn [an_isort fold_right]; [constructor|].
  apply an_insert_sorted; [exact Hd| |exact IH].
  apply (Permutation_Forall (an_isort_perm l)). exact Hl.
Qed.
