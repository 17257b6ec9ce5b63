(** [base::DistributionData], [base::DistributionDataWithInterpolationType] and
    the distributions given for each incident energy (ACE laws 4, 44, 61, 67). *)
From Coq Require Import ZArith Bool List Lia.
From Coq Require Import ZifyBool ZifyNat.
From Verif Require Export AngularBlock.
Import ListNotations.
Open Scope Z_scope.

(** * Writing *)

(** One distribution to be written: its value() (incident energy or cosine) and
    the words inserted for it, given the value just stored as its locator.  For
    the base class the words are [distribution.begin(), distribution.end()]
    whatever the locator is; the derived classes EnergyAngleDistributionData and
    AngleEnergyDistributionData rebuild the distribution with the locator. *)
Definition dd_elem : Type := (double * (double -> outcome (list double)))%type.

(** The loop of src/ACEtk/base/DistributionData/src/generateXSS.hpp:13-28, of
    src/ACEtk/base/DistributionDataWithInterpolationType/src/generateXSS.hpp:11-26 and of
    src/ACEtk/continuous/{EnergyAngle,AngleEnergy}DistributionData/src/generateXSS.hpp:13-33. *)
Fixpoint dd_append (ne : nat) (offset : Z) (index : nat) (es : list dd_elem)
    (xss : list double) : outcome (list double) :=
  match es with
  | [] => Ok xss
  | (value, words) :: r =>
      xss <- upd index value xss ;;
      let locator := dbl (u64 (len xss + offset)) in
      xss <- upd (index + ne) locator xss ;;
      body <- words locator ;;
      dd_append ne offset (S index) r (xss ++ body)
  end.

(** src/ACEtk/base/DistributionData/src/generateXSS.hpp:1-37 *)
Definition dd_generateXSS (nbt int : list Z) (locb : Z) (es : list dd_elem) : outcome (list double) :=
  let ne := length es in
  xss <- upd 0 (dbl (Z.of_nat ne)) (repeat (dbl 0) (1 + 2 * ne)) ;;
  xss <- dd_append ne (1 + 2 * len nbt + locb) 1 es xss ;;
  i <- id_generateXSS nbt int ;;
  Ok (i ++ xss).

(** src/ACEtk/base/DistributionDataWithInterpolationType/src/generateXSS.hpp:1-32;
    [interpolation] is an [unsigned int]. *)
Definition di_generateXSS (interpolation : Z) (locb : Z) (es : list dd_elem) : outcome (list double) :=
  let ne := length es in
  xss <- upd 0 (dbl (Z.of_nat ne)) (repeat (dbl 0) (1 + 2 * ne)) ;;
  xss <- dd_append ne (1 + locb) 1 es xss ;;
  Ok (dbl (u32 interpolation) :: xss).

(** * Reading *)

(** verifyValueIndex, src/ACEtk/base/DistributionData/src/verifyValueIndex.hpp:1-12 and
    the same file of DistributionDataWithInterpolationType *)
Definition dd_verify bm (values : columnData) (index : Z) : outcome unit :=
  if debug bm then n <- cd_N bm values ;; verifyIndex (u64 index) 1 n else Ok tt.
(** value( column, index ), src/ACEtk/base/DistributionData.hpp:120-126 *)
Definition dd_value bm (values : columnData) (column index : Z) : outcome double :=
  _ <- dd_verify bm values index ;; cd_value bm values column index.
(** LOCC( index ), src/ACEtk/base/DistributionData.hpp:138-142; the last column *)
Definition dd_LOCC bm (values : columnData) (index : Z) : outcome Z :=
  x <- dd_value bm values (cd_nc values) index ;; to_int x.

(** relativeDistributionLocator( index ): computed as [std::size_t] and returned as
    [int] (src/ACEtk/base/DistributionData.hpp:170-174) or as [std::size_t]
    (src/ACEtk/base/DistributionDataWithInterpolationType.hpp:136-140). *)
Definition as_int (z : Z) : Z := s32 (u64 z).
Definition dd_relative bm (conv : Z -> Z) (locb : Z) (values : columnData) (index : Z) : outcome Z :=
  l <- dd_LOCC bm values index ;; Ok (conv (l - locb + 1)).

(** The search for the next locator, src/ACEtk/base/DistributionData/src/generateBlocks.hpp:19-28 *)
Fixpoint dd_right bm (v : view) (rel : Z -> outcome Z) (locator : Z) (nexts : list Z) : outcome Z :=
  match nexts with
  | [] => Ok (vend v)
  | next :: r =>
      l <- rel next ;;
      if locator <? l then iter bm v l else dd_right bm v rel locator r
  end.

(** Body of the loop of src/ACEtk/base/DistributionData/src/generateBlocks.hpp:13-30 and of
    src/ACEtk/base/DistributionDataWithInterpolationType/src/generateBlocks.hpp:10-27.
    [gd value locb view] is the constructor of the distribution; its [locb]
    parameter is a [std::size_t]. *)
Definition dd_distribution {D} bm (gd : double -> Z -> view -> outcome D) (conv : Z -> Z)
    (v : view) (locb : Z) (values : columnData) (n index : Z) : outcome D :=
  value <- dd_value bm values 1 index ;;
  loc <- dd_LOCC bm values index ;;
  locator <- dd_relative bm conv locb values index ;;
  left <- iter bm v locator ;;
  right <- dd_right bm v (dd_relative bm conv locb values) locator
             (seqZ (index + 1) (Z.to_nat (n - index))) ;;
  gd value (u64 loc) (sub v left right).

Section DD.
  Context {D : Type}.

  (** src/ACEtk/base/DistributionData.hpp:24-31 *)
  Record distributionData := DistData {
    dd_v : view; dd_locb : Z; dd_interp : columnData; dd_values : columnData; dd_dists : list D }.

  (** src/ACEtk/base/DistributionData/src/generateBlocks.hpp:1-31 *)
  Definition dd_generateBlocks bm gd (locb : Z) (v : view) : outcome distributionData :=
    nr <- ixss_size bm v 1 ;;
    ne <- ixss_size bm v (2 + 2 * nr) ;;
    data <- iter bm v (2 + 2 * nr) ;;
    end_ <- iter bm v (2 + 2 * nr + 2 * ne + 1) ;;
    i <- id_make (sub v (vbeg v) data) ;;
    values <- cd_make (sub v data end_) 2 ;;
    n <- cd_N bm values ;;
    ds <- mapM (dd_distribution bm gd as_int v locb values n) (seqZ 1 (Z.to_nat n)) ;;
    Ok (DistData v locb i values ds).

  (** src/ACEtk/base/DistributionData/src/ctor.hpp:36-48 *)
  Definition dd_of bm gd (nbt int : list Z) (es : list dd_elem) (locb : Z) : outcome distributionData :=
    l <- dd_generateXSS nbt int locb es ;; dd_generateBlocks bm gd locb (own l).

  (** src/ACEtk/base/DistributionData/src/ctor.hpp:58-66, verifySize.hpp:1-15 *)
  Definition dd_make bm gd (locb : Z) (v : view) : outcome distributionData :=
    nr <- (x <- xss bm v 1 ;; round_to_size x) ;;
    ne <- (x <- xss bm v (1 + 2 * nr + 1) ;; round_to_size x) ;;
    _ <- verify_at_least v (u32 (2 + 2 * nr + 2 * ne)) ;;
    dd_generateBlocks bm gd locb v.

  (** NB, NBT, INT, N, values( 1 ), distribution( index ):
      src/ACEtk/base/DistributionData.hpp:53-109, 192-198 *)
  Definition dd_NB bm o := id_NB bm (dd_interp o).
  Definition dd_NBT bm o := id_NBT bm (dd_interp o).
  Definition dd_INT bm o := id_INT bm (dd_interp o).
  Definition dd_N bm o := cd_N bm (dd_values o).
  Definition dd_energies bm o := cd_column bm (dd_values o) 1.
  Definition dd_energy bm o index := dd_value bm (dd_values o) 1 index.
  Definition dd_locator bm o index := dd_LOCC bm (dd_values o) index.
  Definition dd_rel bm o index := dd_relative bm as_int (dd_locb o) (dd_values o) index.
  Definition dd_datum bm (o : distributionData) (index : Z) : outcome D :=
    _ <- dd_verify bm (dd_values o) index ;; at_ (dd_dists o) index.
  (** minimumIncidentEnergy, maximumIncidentEnergy, e.g.
      src/ACEtk/continuous/OutgoingEnergyDistributionData.hpp:135-146 *)
  Definition dd_emin bm o := dd_energy bm o 1.
  Definition dd_emax bm o := n <- dd_N bm o ;; dd_energy bm o n.

  (** src/ACEtk/base/DistributionDataWithInterpolationType.hpp:24-30 *)
  Record distributionDataI := DistDataI {
    di_v : view; di_locb : Z; di_values : columnData; di_dists : list D }.

  (** src/ACEtk/base/DistributionDataWithInterpolationType/src/generateBlocks.hpp:1-28 *)
  Definition di_generateBlocks bm gd (locb : Z) (v : view) : outcome distributionDataI :=
    ne <- ixss_size bm v 2 ;;
    data <- iter bm v 2 ;;
    end_ <- iter bm v (2 + 2 * ne + 1) ;;
    values <- cd_make (sub v data end_) 2 ;;
    n <- cd_N bm values ;;
    ds <- mapM (dd_distribution bm gd u64 v locb values n) (seqZ 1 (Z.to_nat n)) ;;
    Ok (DistDataI v locb values ds).

  (** .../ctor.hpp:33-43 *)
  Definition di_of bm gd interpolation (es : list dd_elem) (locb : Z) : outcome distributionDataI :=
    l <- di_generateXSS interpolation locb es ;; di_generateBlocks bm gd locb (own l).

  (** .../ctor.hpp:53-61, verifySize.hpp:1-13 *)
  Definition di_make bm gd (locb : Z) (v : view) : outcome distributionDataI :=
    ne <- (x <- xss bm v 2 ;; round_to_size x) ;;
    _ <- verify_at_least v (u32 (2 + 2 * ne)) ;;
    di_generateBlocks bm gd locb v.

  (** src/ACEtk/base/DistributionDataWithInterpolationType.hpp:52-164 *)
  Definition di_interpolation bm o := ixss bm (di_v o) 1.
  Definition di_N bm o := cd_N bm (di_values o).
  Definition di_column bm o c := cd_column bm (di_values o) c.
  Definition di_value bm o c index := dd_value bm (di_values o) c index.
  Definition di_rel bm o index := dd_relative bm u64 (di_locb o) (di_values o) index.
  Definition di_datum bm (o : distributionDataI) (index : Z) : outcome D :=
    _ <- dd_verify bm (di_values o) index ;; at_ (di_dists o) index.
End DD.
Arguments distributionData : clear implicits.
Arguments distributionDataI : clear implicits.

(** * Specification *)

(** Words of the distributions, each as a function of the place it is put at
    (its absolute locator), and the locators, starting from [b]. *)
Fixpoint dd_locs (b : Z) (fs : list (Z -> list double)) : list Z :=
  match fs with [] => [] | f :: r => b :: dd_locs (b + len (f b)) r end.
Fixpoint dd_bodies (b : Z) (fs : list (Z -> list double)) : list double :=
  match fs with [] => [] | f :: r => f b ++ dd_bodies (b + len (f b)) r end.

(** [pfx] (interpolation data), the number of distributions, the columns of
    values, the locators and the distributions. *)
Definition dd_layout (pfx : list double) (locb : Z) (cols : list (list double))
    (fs : list (Z -> list double)) : list double :=
  let b0 := locb + len pfx + 1 + (len cols + 1) * len fs in
  pfx ++ (dbl (len fs) :: concat cols ++ map dbl (dd_locs b0 fs)) ++ dd_bodies b0 fs.

(** * Lemmas *)

Lemma length_dd_locs b fs : length (dd_locs b fs) = length fs.
Proof. revert b; induction fs as [|f r IH]; intros b; cbn; [reflexivity|]. rewrite IH; reflexivity. Qed.
Lemma dd_locs_app b p q : dd_locs b (p ++ q) = dd_locs b p ++ dd_locs (b + len (dd_bodies b p)) q.
Proof.
  revert b; induction p as [|f p IH]; intros b; cbn [app dd_locs dd_bodies].
  - rewrite len_nil, Z.add_0_r. reflexivity.
  - rewrite IH, len_app, Z.add_assoc. reflexivity.
Qed.
Lemma dd_bodies_app b p q : dd_bodies b (p ++ q) = dd_bodies b p ++ dd_bodies (b + len (dd_bodies b p)) q.
Proof.
  revert b; induction p as [|f p IH]; intros b; cbn [app dd_bodies].
  - rewrite len_nil, Z.add_0_r. reflexivity.
  - rewrite IH, len_app, Z.add_assoc, <- app_assoc. reflexivity.
Qed.

Definition words_ok (e : dd_elem) (f : Z -> list double) : Prop :=
  forall b, 1 <= b < 2 ^ 31 -> b + len (f b) <= 2 ^ 31 -> snd e (dbl b) = Ok (f b).

Lemma dd_append_spec ne offset n0 vs ls data es fs b :
  Forall2 words_ok es fs ->
  length vs = length ls -> (length vs + length es = ne)%nat ->
  b = offset + 1 + 2 * Z.of_nat ne + len data -> 0 <= offset ->
  b + len (dd_bodies b fs) <= 2 ^ 31 -> Forall (fun f => forall b, 0 < len (f b)) fs ->
  dd_append ne offset (S (length vs)) es
    (n0 :: vs ++ repeat (dbl 0) (length es) ++ ls ++ repeat (dbl 0) (length es) ++ data)
  = Ok (n0 :: (vs ++ map fst es) ++ ls ++ map dbl (dd_locs b fs) ++ data ++ dd_bodies b fs).
Proof.
  intros HF. revert vs ls data b.
  induction HF as [|[e w] f es fs Hw HF IH]; intros vs ls data b Hls Hne Hb Hoff Hs Hpos.
  - cbn. rewrite !app_nil_r. reflexivity.
  - cbn [dd_append length repeat dd_bodies dd_locs] in *. rewrite len_app in Hs.
    inversion Hpos as [|? ? Hf Hpos']; subst x l.
    pose proof (len_nonneg (dd_bodies (b + len (f b)) fs)). pose proof (Hf b).
    rewrite (upd_at _ (n0 :: vs) (dbl 0)
               (repeat (dbl 0) (length es) ++ ls ++ (dbl 0 :: repeat (dbl 0) (length es)) ++ data)) by (cbn; las).
    cbn [bind]. pose proof (len_nonneg data).
    set (xss1 := (n0 :: vs) ++ e :: repeat (dbl 0) (length es) ++ ls ++ (dbl 0 :: repeat (dbl 0) (length es)) ++ data).
    assert (L : u64 (len xss1 + offset) = b).
    { unfold xss1. repeat rewrite ?len_app, ?len_cons, ?len_repeat.
      unfold len in *. rewrite u64_small; lia. }
    rewrite L.
    rewrite (upd_at _ ((n0 :: vs) ++ [e] ++ repeat (dbl 0) (length es) ++ ls) (dbl 0) (repeat (dbl 0) (length es) ++ data)).
    2: { unfold xss1. las. }
    2: { cbn [length app]. rewrite !app_length. cbn [length]. rewrite app_length, repeat_length. lia. }
    cbn [bind]. assert (Ew : w (dbl b) = Ok (f b)) by (apply Hw; lia). rewrite Ew. cbn [bind].
    specialize (IH (vs ++ [e]) (ls ++ [dbl b]) (data ++ f b) (b + len (f b))).
    rewrite !app_length in IH. cbn [length] in IH.
    replace (length vs + 1)%nat with (S (length vs)) in IH by lia.
    replace ((((n0 :: vs) ++ [e] ++ repeat (dbl 0) (length es) ++ ls) ++ dbl b :: repeat (dbl 0) (length es) ++ data) ++ f b)
      with (n0 :: (vs ++ [e]) ++ repeat (dbl 0) (length es) ++ (ls ++ [dbl b]) ++ repeat (dbl 0) (length es) ++ data ++ f b) by las.
    rewrite IH; [|lia|lia|rewrite len_app; lia|exact Hoff|lia|exact Hpos'].
    cbn [map fst]. f_equal. las.
Qed.

Lemma dd_append_ok ne offset es fs b :
  Forall2 words_ok es fs -> Forall (fun f => forall b, 0 < len (f b)) fs ->
  ne = length es -> 0 <= offset -> b = offset + 1 + 2 * len es ->
  b + len (dd_bodies b fs) <= 2 ^ 31 ->
  (xss <- upd 0 (dbl (Z.of_nat ne)) (repeat (dbl 0) (1 + 2 * ne)) ;;
   dd_append ne offset 1 es xss)
  = Ok (dbl (len es) :: map fst es ++ map dbl (dd_locs b fs) ++ dd_bodies b fs).
Proof.
  intros HF Hpos -> Hoff Hb Hs. cbn [Nat.add repeat upd bind].
  replace (2 * length es)%nat with (length es + length es)%nat by lia.
  pose proof (dd_append_spec (length es) offset (dbl (Z.of_nat (length es))) [] [] [] es fs b HF eq_refl eq_refl) as H.
  cbn [length app] in H. rewrite app_nil_r, <- repeat_app in H.
  change (@len double []) with 0 in H. rewrite H; [reflexivity|unfold len in Hb; lia|exact Hoff|exact Hs|exact Hpos].
Qed.

(** ** Reading the part after the prefix *)

Section Read.
  Context {D : Type}.
  Variables (bm : build) (v : view) (pfx : list double) (locb : Z)
    (cols : list (list double)) (fs : list (Z -> list double)).
  Hypothesis Hv : has v (dd_layout pfx locb cols fs).
  Hypothesis Hcols : all_len (len fs) cols.
  Hypothesis Hlocb : 1 <= locb.
  Hypothesis Hpos : Forall (fun f => forall b, 0 < len (f b)) fs.
  Definition dd_b0 : Z := locb + len pfx + 1 + (len cols + 1) * len fs.
  Hypothesis Hsize : dd_b0 + len (dd_bodies dd_b0 fs) <= 2 ^ 31.

  Definition dd_nc : Z := len cols + 1.
  Definition dd_vv : view := sub v (vbeg v + len pfx) (vbeg v + len pfx + 1 + dd_nc * len fs).
  Definition dd_cd : columnData := ColumnData dd_vv dd_nc.
  Definition dd_cols : list (list double) := cols ++ [map dbl (dd_locs dd_b0 fs)].

  Lemma dd_cols_all : all_len (len fs) dd_cols.
  Proof.
    apply Forall_app. split; [exact Hcols|]. repeat constructor.
    rewrite len_map. unfold len. rewrite length_dd_locs. reflexivity.
  Qed.

  Lemma dd_len_cols : len (concat dd_cols) = dd_nc * len fs.
  Proof.
    rewrite (len_concat _ _ dd_cols_all). unfold dd_cols, dd_nc. rewrite len_app, len_cons, len_nil. lia.
  Qed.

  Lemma dd_layout_eq : dd_layout pfx locb cols fs
    = pfx ++ cd_layout (len fs) dd_cols ++ dd_bodies dd_b0 fs.
  Proof.
    unfold dd_layout, cd_layout, dd_cols, dd_b0. rewrite concat_app. cbn [concat].
    rewrite app_nil_r. reflexivity.
  Qed.

  Lemma dd_bounds : 0 <= len pfx /\ 0 <= len fs /\ 0 <= len cols /\ 0 <= dd_nc * len fs
    /\ 0 <= len (dd_bodies dd_b0 fs)
    /\ dd_b0 = locb + len pfx + 1 + dd_nc * len fs
    /\ len fs <= dd_nc * len fs
    /\ len (dd_layout pfx locb cols fs) = len pfx + 1 + dd_nc * len fs + len (dd_bodies dd_b0 fs)
    /\ len (dd_layout pfx locb cols fs) < 2 ^ 31 /\ dd_nc * len fs < 2 ^ 31
    /\ vbeg v + len pfx + 1 + dd_nc * len fs + len (dd_bodies dd_b0 fs) <= vend v.
  Proof.
    pose proof (has_bounds _ _ Hv) as B.
    assert (L : len (dd_layout pfx locb cols fs) = len pfx + 1 + dd_nc * len fs + len (dd_bodies dd_b0 fs)).
    { rewrite dd_layout_eq. unfold cd_layout. rewrite !len_app, len_cons, dd_len_cols. lia. }
    pose proof (len_nonneg pfx). pose proof (len_nonneg fs). pose proof (len_nonneg cols).
    pose proof (len_nonneg (dd_bodies dd_b0 fs)).
    assert (0 <= dd_nc * len fs) by (unfold dd_nc; nia).
    assert (len fs <= dd_nc * len fs) by (unfold dd_nc; nia).
    repeat split; try lia; try (unfold dd_b0, dd_nc; lia).
  Qed.

  Lemma dd_vv_has : content dd_vv (cd_layout (len fs) dd_cols).
  Proof.
    pose proof dd_bounds as B. unfold dd_vv.
    apply (sub_content v pfx _ (dd_bodies dd_b0 fs)).
    - apply (has_eq _ _ _ Hv). apply dd_layout_eq.
    - lia.
    - unfold cd_layout. rewrite len_cons, dd_len_cols. lia.
  Qed.

  Lemma dd_cd_make : cd_make dd_vv dd_nc = Ok dd_cd.
  Proof.
    pose proof dd_bounds as B.
    apply (cd_make_has _ _ _ dd_cols_all (content_has _ _ dd_vv_has)); [lia|].
    unfold dd_nc, dd_cols. rewrite len_app, len_cons, len_nil. lia.
  Qed.

  Lemma dd_N_has : cd_N bm dd_cd = Ok (len fs).
  Proof. pose proof dd_bounds as B. apply (cd_N_has bm _ _ _ (content_has _ _ dd_vv_has)); lia. Qed.

  Lemma dd_column_has k c i : nth_error cols k = Some c -> i = Z.of_nat k + 1 -> cd_column bm dd_cd i = Ok c.
  Proof.
    intros Hk ->. pose proof dd_bounds as B.
    apply (cd_column_has bm _ _ _ dd_cols_all (content_has _ _ dd_vv_has) ltac:(lia) _ k); [|reflexivity].
    unfold dd_cols. rewrite nth_error_app1; [exact Hk|]. apply nth_error_Some. congruence.
  Qed.

  Lemma dd_verify_has i : 1 <= i <= len fs -> dd_verify bm dd_cd i = Ok tt.
  Proof.
    clear Hlocb Hpos Hsize. intros Hi. pose proof dd_bounds as B. unfold dd_verify. destruct (debug bm) eqn:E; [|reflexivity].
    rewrite dd_N_has. cbn [bind]. rewrite u64_small by lia.
    exact (check_verifyIndex Debug i 1 (len fs) Hi).
  Qed.

  Lemma dd_verify_oob i : u64 i < 1 \/ len fs < u64 i -> debug bm = true -> dd_verify bm dd_cd i = Throw OutOfRange.
  Proof.
    intros Hi E. unfold dd_verify. rewrite E, dd_N_has. cbn [bind].
    unfold verifyIndex, throw_if. destruct ((u64 i <? 1) || (len fs <? u64 i)) eqn:E'; [reflexivity|lia].
  Qed.

  Lemma dd_value_has k c j x i i' : nth_error cols k = Some c -> nth_error c j = Some x ->
    i = Z.of_nat k + 1 -> i' = Z.of_nat j + 1 -> dd_value bm dd_cd i i' = Ok x.
  Proof.
    clear Hlocb Hpos Hsize. intros Hk Hj -> ->. pose proof dd_bounds as B. unfold dd_value.
    assert (Lc : len c = len fs).
    { unfold all_len in Hcols. rewrite Forall_forall in Hcols. apply Hcols. eapply nth_error_In; exact Hk. }
    pose proof (nth_error_len _ _ _ Hj).
    rewrite dd_verify_has by lia. cbn [bind].
    apply (cd_value_has bm _ _ _ dd_cols_all (content_has _ _ dd_vv_has) ltac:(lia) _ k c j); try reflexivity; [|exact Hj].
    unfold dd_cols. rewrite nth_error_app1; [exact Hk|]. apply nth_error_Some. congruence.
  Qed.

  (** The locator of a distribution is [dd_b0] plus the words before it. *)
  Lemma dd_LOCC_has pre f post i : fs = pre ++ f :: post -> i = len pre + 1 ->
    dd_LOCC bm dd_cd i = Ok (dd_b0 + len (dd_bodies dd_b0 pre)).
  Proof.
    intros E ->. pose proof dd_bounds as B.
    assert (Lf : len fs = len pre + 1 + len post) by (rewrite E, len_app, len_cons; lia).
    pose proof (len_nonneg pre). pose proof (len_nonneg post).
    assert (Lb : dd_b0 + len (dd_bodies dd_b0 pre) < 2 ^ 31).
    { assert (HX : dd_bodies dd_b0 fs = dd_bodies dd_b0 pre ++ dd_bodies (dd_b0 + len (dd_bodies dd_b0 pre)) (f :: post))
        by (rewrite E at 1; apply dd_bodies_app).
      rewrite HX, len_app in Hsize. cbn [dd_bodies] in Hsize. rewrite len_app in Hsize.
      assert (HP := Hpos). rewrite E in HP. apply Forall_app in HP as [_ HP].
      inversion HP as [|? ? Hf _]; subst x l.
      pose proof (Hf (dd_b0 + len (dd_bodies dd_b0 pre))).
      match type of Hsize with context [len (dd_bodies ?b post)] => pose proof (len_nonneg (dd_bodies b post)) end.
      lia. }
    pose proof (len_nonneg (dd_bodies dd_b0 pre)).
    unfold dd_LOCC, dd_value. cbn [cd_nc dd_cd].
    rewrite dd_verify_has by lia. cbn [bind].
    unfold dd_cd.
    rewrite (cd_value_has bm _ _ _ dd_cols_all (content_has _ _ dd_vv_has) ltac:(lia) _
               (length cols) (map dbl (dd_locs dd_b0 fs)) (length pre) (dbl (dd_b0 + len (dd_bodies dd_b0 pre)))).
    - cbn [bind]. apply to_int_dbl. lia.
    - unfold dd_cols. apply nth_error_mid.
    - rewrite E at 1. rewrite dd_locs_app. cbn [dd_locs]. rewrite map_app. cbn [map].
      rewrite <- (length_dd_locs dd_b0 pre), <- (map_length dbl). rewrite nth_error_mid.
      unfold dd_b0. rewrite E. reflexivity.
    - reflexivity.
    - reflexivity.
  Qed.

  Lemma dd_split pre f post : fs = pre ++ f :: post ->
    dd_layout pfx locb cols fs
    = (pfx ++ cd_layout (len fs) dd_cols ++ dd_bodies dd_b0 pre)
      ++ f (dd_b0 + len (dd_bodies dd_b0 pre)) ++ dd_bodies (dd_b0 + len (dd_bodies dd_b0 (pre ++ [f]))) post
    /\ len (pfx ++ cd_layout (len fs) dd_cols ++ dd_bodies dd_b0 pre)
       = len pfx + 1 + dd_nc * len fs + len (dd_bodies dd_b0 pre)
    /\ len (dd_bodies dd_b0 (pre ++ [f])) = len (dd_bodies dd_b0 pre) + len (f (dd_b0 + len (dd_bodies dd_b0 pre)))
    /\ len (dd_bodies dd_b0 fs) = len (dd_bodies dd_b0 (pre ++ [f]))
        + len (dd_bodies (dd_b0 + len (dd_bodies dd_b0 (pre ++ [f]))) post).
  Proof.
    clear Hv Hlocb Hpos Hsize. intros E.
    assert (LX : len (dd_bodies dd_b0 (pre ++ [f])) = len (dd_bodies dd_b0 pre) + len (f (dd_b0 + len (dd_bodies dd_b0 pre)))).
    { rewrite dd_bodies_app, len_app. cbn [dd_bodies]. rewrite app_nil_r. reflexivity. }
    assert (HX : dd_bodies dd_b0 fs = dd_bodies dd_b0 pre ++ f (dd_b0 + len (dd_bodies dd_b0 pre))
                  ++ dd_bodies (dd_b0 + len (dd_bodies dd_b0 (pre ++ [f]))) post).
    { rewrite E at 1. rewrite dd_bodies_app. cbn [dd_bodies]. rewrite LX, Z.add_assoc. reflexivity. }
    split; [|split; [|split]].
    - rewrite dd_layout_eq, HX. las.
    - rewrite !len_app. unfold cd_layout. rewrite len_cons, dd_len_cols. lia.
    - exact LX.
    - rewrite HX, !len_app, LX. lia.
  Qed.

  Variable conv : Z -> Z.
  Hypothesis Hconv : forall z, 0 <= z < 2 ^ 31 -> conv z = z.

  Lemma dd_rel_has pre f post i : fs = pre ++ f :: post -> i = len pre + 1 ->
    dd_relative bm conv locb dd_cd i
    = Ok (len pfx + 2 + dd_nc * len fs + len (dd_bodies dd_b0 pre)).
  Proof.
    intros E Hi. pose proof dd_bounds as B. unfold dd_relative.
    rewrite (dd_LOCC_has pre f post i E Hi). cbn [bind].
    pose proof (len_nonneg (dd_bodies dd_b0 pre)).
    assert (HX : dd_bodies dd_b0 fs = dd_bodies dd_b0 pre ++ dd_bodies (dd_b0 + len (dd_bodies dd_b0 pre)) (f :: post))
      by (rewrite E at 1; apply dd_bodies_app).
    assert (LX := f_equal (@len _) HX). rewrite len_app in LX. cbn [dd_bodies] in LX. rewrite len_app in LX.
    assert (HP := Hpos). rewrite E in HP. apply Forall_app in HP as [_ HP].
    inversion HP as [|? ? Hf _]; subst x l.
    pose proof (Hf (dd_b0 + len (dd_bodies dd_b0 pre))).
    match type of LX with context [len (dd_bodies ?b post)] => pose proof (len_nonneg (dd_bodies b post)) end.
    rewrite Hconv by lia. f_equal. lia.
  Qed.

  (** The search finds the next distribution, or the end. *)
  Lemma dd_right_has pre f post :
    fs = pre ++ f :: post ->
    dd_right bm v (dd_relative bm conv locb dd_cd)
      (len pfx + 2 + dd_nc * len fs + len (dd_bodies dd_b0 pre))
      (seqZ (len pre + 1 + 1) (length post))
    = Ok (match post with
          | [] => vend v
          | _ => vbeg v + len pfx + 1 + dd_nc * len fs + len (dd_bodies dd_b0 (pre ++ [f]))
          end).
  Proof.
    intros E. pose proof dd_bounds as B. destruct post as [|f' post]; [reflexivity|].
    cbn [length seqZ dd_right].
    rewrite (dd_rel_has (pre ++ [f]) f' post) by
      (try (rewrite E, <- app_assoc; reflexivity); rewrite len_app, len_cons, len_nil; lia).
    cbn [bind].
    assert (LX : len (dd_bodies dd_b0 (pre ++ [f])) = len (dd_bodies dd_b0 pre) + len (f (dd_b0 + len (dd_bodies dd_b0 pre)))).
    { rewrite dd_bodies_app, len_app. cbn [dd_bodies]. rewrite app_nil_r. reflexivity. }
    assert (HP := Hpos). rewrite E in HP. apply Forall_app in HP as [_ HP].
    inversion HP as [|? ? Hf _]; subst x l.
    pose proof (Hf (dd_b0 + len (dd_bodies dd_b0 pre))).
    destruct (Z.ltb_spec (len pfx + 2 + dd_nc * len fs + len (dd_bodies dd_b0 pre))
                (len pfx + 2 + dd_nc * len fs + len (dd_bodies dd_b0 (pre ++ [f])))); [|lia].
    pose proof (len_nonneg (dd_bodies dd_b0 (pre ++ [f]))).
    assert (HX : dd_bodies dd_b0 fs = dd_bodies dd_b0 (pre ++ [f]) ++ dd_bodies (dd_b0 + len (dd_bodies dd_b0 (pre ++ [f]))) (f' :: post)).
    { rewrite <- dd_bodies_app. f_equal. rewrite E. las. }
    assert (LY := f_equal (@len _) HX). rewrite len_app in LY.
    match type of LY with context [len (dd_bodies ?b (f' :: post))] => pose proof (len_nonneg (dd_bodies b (f' :: post))) end.
    rewrite (iter_has _ _ _ _ Hv) by lia. f_equal. lia.
  Qed.

  Variable gd : double -> Z -> view -> outcome D.
  Variable R : nat -> D -> Prop.
  Variable P : view -> list double -> Prop.
  Hypothesis HP : forall w l, content w l -> P w l.
  Hypothesis HPlast : forall l1 l2, dd_layout pfx locb cols fs = l1 ++ l2 ->
    P (sub v (vbeg v + len l1) (vend v)) l2.
  Variable vals : list double.
  Hypothesis Hvals : nth_error cols 0 = Some vals.
  Hypothesis Hgd : forall pre f post x w,
    fs = pre ++ f :: post -> nth_error vals (length pre) = Some x ->
    P w (f (dd_b0 + len (dd_bodies dd_b0 pre))) ->
    exists d, gd x (dd_b0 + len (dd_bodies dd_b0 pre)) w = Ok d /\ R (length pre) d.

  Lemma dd_loop : exists ds,
    mapM (dd_distribution bm gd conv v locb dd_cd (len fs)) (seqZ 1 (length fs)) = Ok ds
    /\ length ds = length fs /\ forall k d, nth_error ds k = Some d -> R k d.
  Proof.
    apply (mapM_seq _ R (length fs) 1 0). intros k Hk. cbn [Nat.add].
    destruct (nth_error fs k) as [f|] eqn:Ek; [|apply nth_error_None in Ek; lia].
    destruct (nth_split_len _ _ _ Ek) as (pre & post & E & Lpre).
    pose proof dd_bounds as B.
    assert (Lp : 1 + Z.of_nat k = len pre + 1) by (unfold len; lia).
    assert (Lf : len fs = len pre + 1 + len post) by (rewrite E, len_app, len_cons; lia).
    pose proof (len_nonneg pre). pose proof (len_nonneg post).
    assert (Lv : len vals = len fs).
    { unfold all_len in Hcols. rewrite Forall_forall in Hcols. apply Hcols. eapply nth_error_In; exact Hvals. }
    destruct (nth_error vals (length pre)) as [x|] eqn:Ex.
    2: { apply nth_error_None in Ex. unfold len in *. lia. }
    rewrite Lp. unfold dd_distribution.
    rewrite (dd_value_has 0 vals (length pre) x 1 (len pre + 1) Hvals Ex eq_refl eq_refl). cbn [bind].
    rewrite (dd_LOCC_has pre f post _ E eq_refl). cbn [bind].
    rewrite (dd_rel_has pre f post _ E eq_refl). cbn [bind].
    destruct (dd_split pre f post E) as (S1 & S2 & S3 & S4).
    pose proof (len_nonneg (dd_bodies dd_b0 pre)).
    assert (HPo := Hpos). rewrite E in HPo. apply Forall_app in HPo as [_ HPo].
    inversion HPo as [|? ? Hf _]; subst x0 l.
    pose proof (Hf (dd_b0 + len (dd_bodies dd_b0 pre))).
    pose proof (len_nonneg (dd_bodies (dd_b0 + len (dd_bodies dd_b0 (pre ++ [f]))) post)).
    rewrite (iter_has _ _ _ _ Hv) by lia. cbn [bind].
    replace (Z.to_nat (len fs - (len pre + 1))) with (length post) by (rewrite Lf; unfold len; lia).
    rewrite (dd_right_has pre f post E). cbn [bind].
    rewrite u64_small by lia.
    rewrite <- Lpre. apply (Hgd pre f post); [exact E|exact Ex|].
    replace (vbeg v + (len pfx + 2 + dd_nc * len fs + len (dd_bodies dd_b0 pre)) - 1)
      with (vbeg v + len (pfx ++ cd_layout (len fs) dd_cols ++ dd_bodies dd_b0 pre)) by lia.
    destruct post as [|f' post].
    - cbn [dd_bodies] in S1. rewrite app_nil_r in S1. apply HPlast. exact S1.
    - apply HP. eapply sub_content.
      + rewrite <- S1. exact Hv.
      + reflexivity.
      + rewrite S2, S3. lia.
  Qed.
End Read.

Lemma conv_int z : 0 <= z < 2 ^ 31 -> as_int z = z.
Proof. intros H. unfold as_int. rewrite u64_small, s32_small by lia. reflexivity. Qed.
Lemma conv_size z : 0 <= z < 2 ^ 31 -> u64 z = z.
Proof. intros H. apply u64_small; lia. Qed.

(** ** DistributionData *)

Section DDHas.
  Context {D : Type}.
  Variables (bm : build) (v : view) (nbt int : list Z) (locb : Z) (vals : list double)
    (fs : list (Z -> list double)).
  Hypothesis Hint : len int = len nbt.
  Hypothesis Hlen : len vals = len fs.
  Hypothesis Hv : has v (dd_layout (id_layout nbt int) locb [vals] fs).
  Hypothesis Hlocb : 1 <= locb.
  Hypothesis Hpos : Forall (fun f => forall b, 0 < len (f b)) fs.
  Definition ddh_b0 : Z := locb + 2 * len nbt + 2 + 2 * len fs.
  Hypothesis Hsize : ddh_b0 + len (dd_bodies ddh_b0 fs) <= 2 ^ 31.

  Lemma len_id_layout : len (id_layout nbt int) = 1 + 2 * len nbt.
  Proof. unfold id_layout. slen. lia. Qed.
  Lemma ddh_b0_eq : dd_b0 (id_layout nbt int) locb [vals] fs = ddh_b0.
  Proof. unfold dd_b0, ddh_b0. rewrite len_id_layout, len_cons, len_nil. lia. Qed.
  Lemma ddh_nc : dd_nc [vals] = 2.
  Proof. reflexivity. Qed.
  Lemma ddh_all : all_len (len fs) [vals].
  Proof. repeat constructor. exact Hlen. Qed.
  Lemma ddh_size : dd_b0 (id_layout nbt int) locb [vals] fs
    + len (dd_bodies (dd_b0 (id_layout nbt int) locb [vals] fs) fs) <= 2 ^ 31.
  Proof. rewrite ddh_b0_eq. exact Hsize. Qed.

  Lemma ddh_first : has v ([] ++ dbl (len nbt) :: (map dbl nbt ++ map dbl int) ++ dbl (len fs) ::
     concat [vals] ++ map dbl (dd_locs ddh_b0 fs) ++ dd_bodies ddh_b0 fs).
  Proof.
    apply (has_eq _ _ _ Hv). unfold dd_layout.
    change (locb + len (id_layout nbt int) + 1 + (len [vals] + 1) * len fs) with (dd_b0 (id_layout nbt int) locb [vals] fs).
    rewrite ddh_b0_eq. unfold id_layout. las.
  Qed.
  Lemma ddh_second : has v ((dbl (len nbt) :: (map dbl nbt ++ map dbl int)) ++ dbl (len fs) ::
     concat [vals] ++ map dbl (dd_locs ddh_b0 fs) ++ dd_bodies ddh_b0 fs).
  Proof. apply (has_eq _ _ _ ddh_first). las. Qed.

  Definition ddh_values : columnData := dd_cd v (id_layout nbt int) [vals] fs.

  Variable gd : double -> Z -> view -> outcome D.
  Variable R : nat -> D -> Prop.

  Definition ddh_shows (o : distributionData D) : Prop :=
    dd_NB bm o = Ok (len nbt) /\ dd_NBT bm o = Ok (map dbl nbt) /\ dd_INT bm o = Ok (map dbl int)
    /\ dd_N bm o = Ok (len fs) /\ dd_energies bm o = Ok vals
    /\ (forall k x, nth_error vals k = Some x -> dd_energy bm o (Z.of_nat k + 1) = Ok x)
    /\ (forall pre f post, fs = pre ++ f :: post ->
          dd_locator bm o (len pre + 1) = Ok (ddh_b0 + len (dd_bodies ddh_b0 pre))
          /\ dd_rel bm o (len pre + 1) = Ok (ddh_b0 + len (dd_bodies ddh_b0 pre) - locb + 1))
    /\ (forall k, (k < length fs)%nat -> exists d, dd_datum bm o (Z.of_nat k + 1) = Ok d /\ R k d)
    /\ (debug bm = true -> forall i, u64 i < 1 \/ len fs < u64 i -> dd_datum bm o i = Throw OutOfRange).

  Lemma ddh_blocks (P : view -> list double -> Prop) :
    (forall w l, content w l -> P w l) ->
    (forall l1 l2, dd_layout (id_layout nbt int) locb [vals] fs = l1 ++ l2 ->
       P (sub v (vbeg v + len l1) (vend v)) l2) ->
    (forall pre f post x w, fs = pre ++ f :: post -> nth_error vals (length pre) = Some x ->
       P w (f (ddh_b0 + len (dd_bodies ddh_b0 pre))) ->
       exists d, gd x (ddh_b0 + len (dd_bodies ddh_b0 pre)) w = Ok d /\ R (length pre) d) ->
    exists o, dd_generateBlocks bm gd locb v = Ok o /\ dd_make bm gd locb v = Ok o
      /\ dd_v o = v /\ dd_locb o = locb /\ ddh_shows o
      /\ length (dd_dists o) = length fs /\ forall k d, nth_error (dd_dists o) k = Some d -> R k d.
  Proof.
    intros HP HPlast Hgd.
    pose proof (dd_bounds _ _ _ _ _ Hv ddh_all) as B. rewrite ddh_nc in B. rewrite ddh_b0_eq in B.
    rewrite len_id_layout in B. pose proof (len_nonneg nbt).
    destruct (dd_loop bm v _ locb _ _ Hv ddh_all Hlocb Hpos ddh_size as_int conv_int gd R P HP HPlast vals eq_refl)
      as (ds & Hds & Lds & Rds).
    { rewrite ddh_b0_eq. exact Hgd. }
    set (o := DistData v locb (ColumnData (sub v (vbeg v) (vbeg v + 1 + 2 * len nbt)) 2) ddh_values ds).
    assert (Hi : content (sub v (vbeg v) (vbeg v + 1 + 2 * len nbt)) (id_layout nbt int)).
    { eapply (sub_content v [] (id_layout nbt int)).
      - exact Hv.
      - rewrite len_nil. lia.
      - rewrite len_nil, len_id_layout. lia. }
    destruct (id_has bm _ _ _ Hint (content_has _ _ Hi)) as [Mi Si].
    assert (N : cd_N bm ddh_values = Ok (len fs)) by exact (dd_N_has bm _ _ _ _ _ Hv ddh_all).
    assert (G : dd_generateBlocks bm gd locb v = Ok o).
    { unfold dd_generateBlocks.
      rewrite (ixss_size_at _ _ _ _ _ _ ddh_first) by (rewrite ?len_nil; lia). cbn [bind].
      rewrite (ixss_size_at _ _ _ _ _ _ ddh_second) by (slen; lia). cbn [bind].
      rewrite (iter_has _ _ _ _ Hv) by lia. cbn [bind].
      rewrite (iter_has _ _ _ _ Hv) by lia. cbn [bind].
      replace (vbeg v + (2 + 2 * len nbt) - 1) with (vbeg v + 1 + 2 * len nbt) by lia.
      rewrite Mi. cbn [bind].
      assert (Ev : sub v (vbeg v + 1 + 2 * len nbt) (vbeg v + (2 + 2 * len nbt + 2 * len fs + 1) - 1)
              = dd_vv v (id_layout nbt int) [vals] fs).
      { unfold dd_vv. rewrite len_id_layout, ddh_nc. f_equal; lia. }
      rewrite Ev. pose proof (dd_cd_make _ _ _ _ _ Hv ddh_all) as M. rewrite ddh_nc in M. rewrite M. cbn [bind].
      fold ddh_values. rewrite N. cbn [bind].
      replace (Z.to_nat (len fs)) with (length fs) by (unfold len; lia).
      unfold ddh_values at 1. rewrite Hds. reflexivity. }
    exists o. split; [exact G|]. split.
    { unfold dd_make.
      rewrite (xss_round_size_at _ _ _ _ _ _ ddh_first) by (rewrite ?len_nil; lia). cbn [bind].
      rewrite (xss_round_size_at _ _ _ _ _ _ ddh_second) by (slen; lia). cbn [bind].
      rewrite u32_small by lia.
      rewrite (verify_at_least_has _ _ _ Hv) by lia. exact G. }
    split; [reflexivity|]. split; [reflexivity|].
    split; [|split; [exact Lds|exact Rds]].
    destruct Si as (S1 & S2 & S3).
    split; [exact S1|]. split; [exact S2|]. split; [exact S3|].
    split; [exact N|].
    split; [exact (dd_column_has bm _ _ _ _ _ Hv ddh_all 0 vals 1 eq_refl eq_refl)|].
    split; [|split; [|split]].
    - intros k x Hk. apply (dd_value_has bm _ _ _ _ _ Hv ddh_all 0 vals k x); auto.
    - intros pre f post E. split.
      + unfold dd_locator. cbn [dd_values o].
        rewrite <- ddh_b0_eq. apply (dd_LOCC_has bm _ _ _ _ _ Hv ddh_all Hlocb Hpos ddh_size pre f post); auto.
      + unfold dd_rel. cbn [dd_values dd_locb o].
        pose proof (dd_rel_has bm _ _ _ _ _ Hv ddh_all Hlocb Hpos ddh_size as_int conv_int pre f post _ E eq_refl) as HR.
        rewrite len_id_layout, ddh_nc, ddh_b0_eq in HR. unfold ddh_values. rewrite HR. f_equal. unfold ddh_b0. lia.
    - intros k Hk. destruct (nth_error ds k) as [d|] eqn:Ed; [|apply nth_error_None in Ed; lia].
      exists d. split; [|exact (Rds k d Ed)].
      unfold dd_datum. cbn [dd_values dd_dists o]. unfold ddh_values.
      rewrite (dd_verify_has bm _ _ _ _ _ Hv ddh_all) by (unfold len; lia). cbn [bind].
      apply (at_has _ _ _ _ Ed); [reflexivity|]. unfold len in *. lia.
    - intros Hd i Hi'. unfold dd_datum. cbn [dd_values o]. unfold ddh_values.
      rewrite (dd_verify_oob bm _ _ _ _ _ Hv ddh_all i Hi' Hd). reflexivity.
  Qed.
End DDHas.

(** ** DistributionDataWithInterpolationType *)

Section DIHas.
  Context {D : Type}.
  Variables (bm : build) (v : view) (interp locb : Z) (vals : list double) (fs : list (Z -> list double)).
  Hypothesis Hlen : len vals = len fs.
  Hypothesis Hinterp : 0 <= interp < 2 ^ 31.
  Hypothesis Hv : has v (dd_layout [dbl interp] locb [vals] fs).
  Hypothesis Hlocb : 1 <= locb.
  Hypothesis Hpos : Forall (fun f => forall b, 0 < len (f b)) fs.
  Definition dih_b0 : Z := locb + 2 + 2 * len fs.
  Hypothesis Hsize : dih_b0 + len (dd_bodies dih_b0 fs) <= 2 ^ 31.

  Lemma dih_b0_eq : dd_b0 [dbl interp] locb [vals] fs = dih_b0.
  Proof. unfold dd_b0, dih_b0. change (len [dbl interp]) with 1. change (len [vals]) with 1. lia. Qed.
  Lemma dih_size : dd_b0 [dbl interp] locb [vals] fs
    + len (dd_bodies (dd_b0 [dbl interp] locb [vals] fs) fs) <= 2 ^ 31.
  Proof. rewrite dih_b0_eq. exact Hsize. Qed.
  Lemma dih_all : all_len (len fs) [vals].
  Proof. repeat constructor. exact Hlen. Qed.

  Definition dih_values : columnData := dd_cd v [dbl interp] [vals] fs.

  Variable gd : double -> Z -> view -> outcome D.
  Variable R : nat -> D -> Prop.

  Definition dih_shows (o : distributionDataI D) : Prop :=
    di_interpolation bm o = Ok interp
    /\ di_N bm o = Ok (len fs) /\ di_column bm o 1 = Ok vals
    /\ (forall k x, nth_error vals k = Some x -> di_value bm o 1 (Z.of_nat k + 1) = Ok x)
    /\ (forall pre f post, fs = pre ++ f :: post ->
          di_rel bm o (len pre + 1) = Ok (dih_b0 + len (dd_bodies dih_b0 pre) - locb + 1))
    /\ (forall k, (k < length fs)%nat -> exists d, di_datum bm o (Z.of_nat k + 1) = Ok d /\ R k d)
    /\ (debug bm = true -> forall i, u64 i < 1 \/ len fs < u64 i -> di_datum bm o i = Throw OutOfRange).

  Lemma dih_second : has v ([dbl interp] ++ dbl (len fs) ::
     concat [vals] ++ map dbl (dd_locs dih_b0 fs) ++ dd_bodies dih_b0 fs).
  Proof.
    apply (has_eq _ _ _ Hv). unfold dd_layout.
    change (locb + len [dbl interp] + 1 + (len [vals] + 1) * len fs) with (dd_b0 [dbl interp] locb [vals] fs).
    rewrite dih_b0_eq. las.
  Qed.

  Lemma dih_blocks (P : view -> list double -> Prop) :
    (forall w l, content w l -> P w l) ->
    (forall l1 l2, dd_layout [dbl interp] locb [vals] fs = l1 ++ l2 ->
       P (sub v (vbeg v + len l1) (vend v)) l2) ->
    (forall pre f post x w, fs = pre ++ f :: post -> nth_error vals (length pre) = Some x ->
       P w (f (dih_b0 + len (dd_bodies dih_b0 pre))) ->
       exists d, gd x (dih_b0 + len (dd_bodies dih_b0 pre)) w = Ok d /\ R (length pre) d) ->
    exists o, di_generateBlocks bm gd locb v = Ok o /\ di_make bm gd locb v = Ok o
      /\ di_v o = v /\ di_locb o = locb /\ dih_shows o
      /\ length (di_dists o) = length fs /\ forall k d, nth_error (di_dists o) k = Some d -> R k d.
  Proof.
    intros HP HPlast Hgd.
    pose proof (dd_bounds _ _ _ _ _ Hv dih_all) as B. change (dd_nc [vals]) with 2 in B.
    rewrite dih_b0_eq in B. change (len [dbl interp]) with 1 in B.
    destruct (dd_loop bm v _ locb _ _ Hv dih_all Hlocb Hpos dih_size u64 conv_size gd R P HP HPlast vals eq_refl)
      as (ds & Hds & Lds & Rds).
    { rewrite dih_b0_eq. exact Hgd. }
    set (o := DistDataI v locb dih_values ds).
    assert (N : cd_N bm dih_values = Ok (len fs)) by exact (dd_N_has bm _ _ _ _ _ Hv dih_all).
    assert (G : di_generateBlocks bm gd locb v = Ok o).
    { unfold di_generateBlocks.
      rewrite (ixss_size_at _ _ _ _ _ _ dih_second) by (slen; lia). cbn [bind].
      rewrite (iter_has _ _ _ _ Hv) by lia. cbn [bind].
      rewrite (iter_has _ _ _ _ Hv) by lia. cbn [bind].
      assert (Ev : sub v (vbeg v + 2 - 1) (vbeg v + (2 + 2 * len fs + 1) - 1)
              = dd_vv v [dbl interp] [vals] fs).
      { unfold dd_vv. change (dd_nc [vals]) with 2. change (len [dbl interp]) with 1. f_equal; lia. }
      rewrite Ev. pose proof (dd_cd_make _ _ _ _ _ Hv dih_all) as M. change (dd_nc [vals]) with 2 in M.
      rewrite M. cbn [bind].
      fold dih_values. rewrite N. cbn [bind].
      replace (Z.to_nat (len fs)) with (length fs) by (unfold len; lia).
      unfold dih_values at 1. rewrite Hds. reflexivity. }
    exists o. split; [exact G|]. split.
    { unfold di_make.
      rewrite (xss_round_size_at _ _ _ _ _ _ dih_second) by (slen; lia). cbn [bind].
      rewrite u32_small by lia.
      rewrite (verify_at_least_has _ _ _ Hv) by lia. exact G. }
    split; [reflexivity|]. split; [reflexivity|].
    split; [|split; [exact Lds|exact Rds]].
    split.
    { apply (ixss_at bm v [] interp _ 1 Hv); [reflexivity|lia]. }
    split; [exact N|].
    split; [exact (dd_column_has bm _ _ _ _ _ Hv dih_all 0 vals 1 eq_refl eq_refl)|].
    split; [|split; [|split]].
    - intros k x Hk. apply (dd_value_has bm _ _ _ _ _ Hv dih_all 0 vals k x); auto.
    - intros pre f post E. unfold di_rel. cbn [di_values di_locb o].
      pose proof (dd_rel_has bm _ _ _ _ _ Hv dih_all Hlocb Hpos dih_size u64 conv_size pre f post _ E eq_refl) as HR.
      change (dd_nc [vals]) with 2 in HR. change (len [dbl interp]) with 1 in HR.
      rewrite dih_b0_eq in HR. unfold dih_values. rewrite HR. f_equal. unfold dih_b0. lia.
    - intros k Hk. destruct (nth_error ds k) as [d|] eqn:Ed; [|apply nth_error_None in Ed; lia].
      exists d. split; [|exact (Rds k d Ed)].
      unfold di_datum. cbn [di_values di_dists o]. unfold dih_values.
      rewrite (dd_verify_has bm _ _ _ _ _ Hv dih_all) by (unfold len; lia). cbn [bind].
      apply (at_has _ _ _ _ Ed); [reflexivity|]. unfold len in *. lia.
    - intros Hd i Hi'. unfold di_datum. cbn [di_values o]. unfold dih_values.
      rewrite (dd_verify_oob bm _ _ _ _ _ Hv dih_all i Hi' Hd). reflexivity.
  Qed.
End DIHas.

(** ** The generators write these layouts *)

Lemma dd_generateXSS_ok nbt int locb es fs :
  Forall2 words_ok es fs -> Forall (fun f => forall b, 0 < len (f b)) fs ->
  len int = len nbt -> 0 <= locb ->
  ddh_b0 nbt locb fs + len (dd_bodies (ddh_b0 nbt locb fs) fs) <= 2 ^ 31 ->
  dd_generateXSS nbt int locb es = Ok (dd_layout (id_layout nbt int) locb [map fst es] fs).
Proof.
  intros HF Hpos Hint Hlocb Hs. unfold dd_generateXSS.
  assert (L : len es = len fs) by (unfold len; rewrite (Forall2_len _ _ _ HF); reflexivity).
  pose proof (len_nonneg nbt).
  pose proof (dd_append_ok (length es) (1 + 2 * len nbt + locb) es fs (ddh_b0 nbt locb fs) HF Hpos eq_refl) as H1.
  unfold bind in H1 at 1. unfold bind at 1.
  destruct (upd _ _ _) as [x0| |] eqn:EU; try (specialize (H1 ltac:(lia) ltac:(unfold ddh_b0; lia) Hs); discriminate).
  rewrite H1; [|lia|unfold ddh_b0; lia|exact Hs]. cbn [bind].
  rewrite (id_generateXSS_ok _ _ Hint). cbn [bind]. unfold dd_layout. rewrite (len_id_layout nbt int Hint).
  replace (locb + (1 + 2 * len nbt) + 1 + (len [map fst es] + 1) * len fs) with (ddh_b0 nbt locb fs)
    by (unfold ddh_b0; rewrite len_cons, len_nil; lia).
  rewrite L. f_equal. las.
Qed.

Lemma dd_generateXSS_ragged nbt int locb es fs :
  Forall2 words_ok es fs -> Forall (fun f => forall b, 0 < len (f b)) fs -> 0 <= locb ->
  ddh_b0 nbt locb fs + len (dd_bodies (ddh_b0 nbt locb fs) fs) <= 2 ^ 31 ->
  len int <> len nbt -> dd_generateXSS nbt int locb es = Throw StdException.
Proof.
  intros HF Hpos Hlocb Hs Hint. unfold dd_generateXSS.
  assert (L : len es = len fs) by (unfold len; rewrite (Forall2_len _ _ _ HF); reflexivity).
  pose proof (len_nonneg nbt).
  pose proof (dd_append_ok (length es) (1 + 2 * len nbt + locb) es fs (ddh_b0 nbt locb fs) HF Hpos eq_refl) as H1.
  unfold bind in H1 at 1. unfold bind at 1.
  destruct (upd _ _ _) as [x0| |] eqn:EU; try (specialize (H1 ltac:(lia) ltac:(unfold ddh_b0; lia) Hs); discriminate).
  rewrite H1; [|lia|unfold ddh_b0; lia|exact Hs]. cbn [bind].
  rewrite (id_generateXSS_ragged _ _ Hint). reflexivity.
Qed.

Lemma di_generateXSS_ok interp locb es fs :
  Forall2 words_ok es fs -> Forall (fun f => forall b, 0 < len (f b)) fs ->
  0 <= interp < 2 ^ 31 -> 0 <= locb ->
  dih_b0 locb fs + len (dd_bodies (dih_b0 locb fs) fs) <= 2 ^ 31 ->
  di_generateXSS interp locb es = Ok (dd_layout [dbl interp] locb [map fst es] fs).
Proof.
  intros HF Hpos Hint Hlocb Hs. unfold di_generateXSS.
  assert (L : len es = len fs) by (unfold len; rewrite (Forall2_len _ _ _ HF); reflexivity).
  pose proof (dd_append_ok (length es) (1 + locb) es fs (dih_b0 locb fs) HF Hpos eq_refl) as H1.
  unfold bind in H1 at 1. unfold bind at 1.
  destruct (upd _ _ _) as [x0| |] eqn:EU; try (specialize (H1 ltac:(lia) ltac:(unfold dih_b0; lia) Hs); discriminate).
  rewrite H1; [|lia|unfold dih_b0; lia|exact Hs]. cbn [bind].
  rewrite u32_small by lia. unfold dd_layout.
  replace (locb + len [dbl interp] + 1 + (len [map fst es] + 1) * len fs) with (dih_b0 locb fs)
    by (unfold dih_b0; change (len [dbl interp]) with 1; change (len [map fst es]) with 1; lia).
  rewrite L. f_equal. las.
Qed.

Lemma len_dd_layout pfx locb cols fs : all_len (len fs) cols ->
  len (dd_layout pfx locb cols fs)
  = len pfx + 1 + (len cols + 1) * len fs
    + len (dd_bodies (locb + len pfx + 1 + (len cols + 1) * len fs) fs).
Proof.
  intros H. unfold dd_layout. rewrite !len_app, len_cons, len_app, len_map, (len_concat _ _ H).
  unfold len at 4. rewrite length_dd_locs. unfold len. lia.
Qed.
