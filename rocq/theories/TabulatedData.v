(** [base::TabulatedData] and the classes built directly on it. *)
From Coq Require Import ZArith Bool List Lia.
From Coq Require Import ZifyBool ZifyNat.
From Verif Require Export ColumnData.
Import ListNotations.
Open Scope Z_scope.

(** * TabulatedData *)

(** src/ACEtk/base/TabulatedData.hpp:19-24 *)
Record tabulatedData := TabulatedData { td_v : view; td_interp : columnData; td_data : columnData }.

(** generateXSS, src/ACEtk/base/TabulatedData/src/generateXSS.hpp:1-25 *)
Definition td_generateXSS (nbt int : list Z) (x y : list double) : outcome (list double) :=
  i <- id_generateXSS nbt int ;; t <- cd_generateXSS [x; y] ;; Ok (i ++ t).

(** generateBlocks, src/ACEtk/base/TabulatedData/src/generateBlocks.hpp:1-11 *)
Definition td_generateBlocks bm (v : view) : outcome tabulatedData :=
  nr <- ixss_size bm v 1 ;;
  ne <- ixss_size bm v (1 + 2 * nr + 1) ;;
  let data := adv (vbeg v) (2 * nr) + 1 in
  let end_ := adv data (2 * ne) + 1 in
  i <- id_make (sub v (vbeg v) data) ;;
  d <- cd_make (sub v data end_) 2 ;;
  Ok (TabulatedData v i d).

(** TabulatedData( name, boundaries, interpolants, x, y ),
    src/ACEtk/base/TabulatedData/src/ctor.hpp:32-41 *)
Definition td_of bm nbt int x y : outcome tabulatedData :=
  l <- td_generateXSS nbt int x y ;; td_generateBlocks bm (own l).

(** TabulatedData( name, begin, end ), ctor.hpp:50-57, with verifySize.hpp:1-15:
    nr and ne are truncated to unsigned int. *)
Definition td_make bm (v : view) : outcome tabulatedData :=
  nr <- (x <- xss bm v 1 ;; round_to_size x) ;;
  ne <- (x <- xss bm v (1 + 2 * nr + 1) ;; round_to_size x) ;;
  _ <- verify_at_least v (u32 (2 + 2 * nr + 2 * ne)) ;;
  td_generateBlocks bm v.

(** Accessors, src/ACEtk/base/TabulatedData.hpp:38-88 *)
Definition td_NB bm o := id_NB bm (td_interp o).
Definition td_NBT bm o := id_NBT bm (td_interp o).
Definition td_INT bm o := id_INT bm (td_interp o).
Definition td_N bm o := cd_N bm (td_data o).
Definition td_x bm o := cd_column bm (td_data o) 1.
Definition td_y bm o := cd_column bm (td_data o) 2.

(** ** Specification *)

Definition td_layout (nbt int : list Z) (x y : list double) : list double :=
  dbl (len nbt) :: map dbl nbt ++ map dbl int ++ dbl (len x) :: x ++ y.

(** All values a tabulated function shows. *)
Definition td_shows bm o (nbt int : list Z) (x y : list double) : Prop :=
  td_NB bm o = Ok (len nbt) /\ td_NBT bm o = Ok (map dbl nbt) /\ td_INT bm o = Ok (map dbl int)
  /\ td_N bm o = Ok (len x) /\ td_x bm o = Ok x /\ td_y bm o = Ok y.

Lemma td_generateXSS_inv nbt int x y l :
  td_generateXSS nbt int x y = Ok l ->
  len int = len nbt /\ len y = len x /\ l = td_layout nbt int x y.
Proof.
  unfold td_generateXSS. intros H.
  destruct (id_generateXSS nbt int) as [i| |] eqn:Ei; [|discriminate|discriminate].
  cbn [bind] in H. destruct (cd_generateXSS [x; y]) as [t| |] eqn:Et; [|discriminate|discriminate].
  cbn [bind] in H. injection H as <-.
  apply id_generateXSS_inv in Ei as (E1 & ->).
  apply cd_generateXSS_inv in Et as (ne & _ & A & ->).
  inversion A as [|? ? Hx A1]; subst. inversion A1 as [|? ? Hy A2]; subst.
  split; [exact E1|]. split; [exact Hy|].
  unfold td_layout, id_layout, cd_layout. las.
Qed.

Lemma td_generateXSS_ok nbt int x y :
  len int = len nbt -> len y = len x -> td_generateXSS nbt int x y = Ok (td_layout nbt int x y).
Proof.
  intros E1 E2. unfold td_generateXSS. rewrite (id_generateXSS_ok _ _ E1). cbn [bind].
  rewrite (cd_generateXSS_ok x [y]) by (repeat constructor; assumption). cbn [bind].
  unfold td_layout, id_layout, cd_layout. f_equal. las.
Qed.

Lemma td_generateXSS_ragged nbt int x y :
  len int <> len nbt \/ len y <> len x -> td_generateXSS nbt int x y = Throw StdException.
Proof.
  intros H. unfold td_generateXSS.
  destruct (Z.eq_dec (len int) (len nbt)) as [E|E].
  - rewrite (id_generateXSS_ok _ _ E). cbn [bind]. unfold cd_generateXSS.
    rewrite cd_append_ragged; [reflexivity|]. intros A.
    inversion A as [|? ? Hx A1]; subst. inversion A1; subst. lia.
  - rewrite (id_generateXSS_ragged _ _ E). reflexivity.
Qed.

Lemma len_td_layout nbt int x y : len int = len nbt -> len y = len x ->
  len (td_layout nbt int x y) = 2 + 2 * len nbt + 2 * len x.
Proof. intros E1 E2. unfold td_layout. slen. lia. Qed.

Section Tab.
  Variables (bm : build) (v : view) (nbt int : list Z) (x y : list double).
  Hypothesis E1 : len int = len nbt.
  Hypothesis E2 : len y = len x.
  Hypothesis Hv : has v (td_layout nbt int x y).

  Lemma td_bounds : 0 <= len nbt < 2 ^ 31 /\ 0 <= len x < 2 ^ 31 /\ 2 + 2 * len nbt + 2 * len x < 2 ^ 31.
  Proof.
    pose proof (has_bounds _ _ Hv) as B. rewrite (len_td_layout _ _ _ _ E1 E2) in B. nonneg. lia.
  Qed.

  Lemma td_has_ne : has v ((dbl (len nbt) :: map dbl nbt ++ map dbl int) ++ dbl (len x) :: x ++ y).
  Proof. apply (has_eq _ _ _ Hv). unfold td_layout. las. Qed.

  Lemma td_blocks_has : exists o, td_generateBlocks bm v = Ok o /\ td_v o = v /\ td_shows bm o nbt int x y.
  Proof.
    pose proof td_bounds as B. unfold td_generateBlocks.
    rewrite (ixss_size_at _ _ [] (len nbt) (map dbl nbt ++ map dbl int ++ dbl (len x) :: x ++ y));
      [|exact Hv|reflexivity|lia]. cbn [bind].
    rewrite (ixss_size_at _ _ _ _ _ _ td_has_ne);
      [|slen; lia|lia]. cbn [bind].
    rewrite !adv_small by lia.
    assert (Hi : content (sub v (vbeg v) (vbeg v + 2 * len nbt + 1)) (id_layout nbt int)).
    { apply (sub_content v [] (id_layout nbt int) (dbl (len x) :: x ++ y)).
      - apply (has_eq _ _ _ Hv). unfold td_layout, id_layout. las.
      - slen; lia.
      - unfold id_layout. slen; lia. }
    destruct (id_has bm _ _ _ E1 (content_has _ _ Hi)) as [Mi Si].
    rewrite Mi. cbn [bind].
    assert (A : all_len (len x) [x; y]) by (repeat constructor; assumption).
    assert (Hd : content (sub v (vbeg v + 2 * len nbt + 1) (vbeg v + 2 * len nbt + 1 + 2 * len x + 1))
                         (cd_layout (len x) [x; y])).
    { apply (sub_content v (id_layout nbt int) (cd_layout (len x) [x; y]) []).
      - apply (has_eq _ _ _ Hv). unfold td_layout, id_layout, cd_layout. las.
      - unfold id_layout. slen; lia.
      - unfold id_layout, cd_layout. cbn [concat]. slen; lia. }
    pose proof (content_has _ _ Hd) as Hd'.
    rewrite (cd_make_has _ _ _ A Hd' ltac:(lia) 2 eq_refl). cbn [bind].
    eexists. split; [reflexivity|]. split; [reflexivity|].
    destruct Si as (S1 & S2 & S3).
    split; [exact S1|]. split; [exact S2|]. split; [exact S3|].
    split; [exact (cd_N_has bm _ _ _ Hd' ltac:(lia) 2)|].
    split.
    - exact (cd_column_has bm _ _ _ A Hd' ltac:(lia) 2 0 _ 1 eq_refl eq_refl).
    - exact (cd_column_has bm _ _ _ A Hd' ltac:(lia) 2 1 _ 2 eq_refl eq_refl).
  Qed.

  Lemma td_make_has : exists o, td_make bm v = Ok o /\ td_v o = v /\ td_shows bm o nbt int x y.
  Proof.
    pose proof td_bounds as B. unfold td_make.
    rewrite (xss_round_size_at _ _ [] (len nbt) (map dbl nbt ++ map dbl int ++ dbl (len x) :: x ++ y));
      [|exact Hv|reflexivity|lia]. cbn [bind].
    rewrite (xss_round_size_at _ _ _ _ _ _ td_has_ne);
      [|slen; lia|lia]. cbn [bind].
    rewrite u32_small by lia.
    rewrite (verify_at_least_has _ _ _ Hv) by (rewrite len_td_layout by assumption; lia).
    exact td_blocks_has.
  Qed.
End Tab.

(** The first lines of many classes: nr = IXSS(1), ne = IXSS(1 + 2 nr + 1). *)
Lemma td_nr bm v nbt int x y : len int = len nbt -> len y = len x ->
  has v (td_layout nbt int x y) -> ixss_size bm v 1 = Ok (len nbt).
Proof.
  intros E1 E2 H. pose proof (td_bounds _ _ _ _ _ E1 E2 H).
  apply (ixss_size_at _ _ [] _ (map dbl nbt ++ map dbl int ++ dbl (len x) :: x ++ y));
    [exact H|reflexivity|lia].
Qed.
Lemma td_ne bm v nbt int x y : len int = len nbt -> len y = len x ->
  has v (td_layout nbt int x y) -> ixss_size bm v (1 + 2 * len nbt + 1) = Ok (len x).
Proof.
  intros E1 E2 H. pose proof (td_bounds _ _ _ _ _ E1 E2 H).
  apply (ixss_size_at _ _ _ _ _ _ (td_has_ne _ _ _ _ _ H)); [slen; lia|lia].
Qed.

(** TabulatedMultiplicity, ParameterData and DistributionProbability
    (src/ACEtk/continuous/TabulatedMultiplicity.hpp, ParameterData.hpp,
    DistributionProbability.hpp and their src/ctor.hpp) are TabulatedData under
    another name. *)

(** * Evaporation spectra *)

(** base::EvaporationSpectrum, src/ACEtk/base/EvaporationSpectrum.hpp:19-24,
    used for SimpleMaxwellianFissionSpectrum and EvaporationSpectrum; [type_] is
    fixed by the derived class (EnergyDistribution.v). *)
Record evaporation := Evaporation { ev_v : view; ev_tab : tabulatedData }.

(** src/ACEtk/base/EvaporationSpectrum/src/generateXSS.hpp:1-22 *)
Definition ev_generateXSS nbt int e t (u : double) : outcome (list double) :=
  l <- td_generateXSS nbt int e t ;; Ok (l ++ [u]).

(** src/ACEtk/base/EvaporationSpectrum/src/generateBlocks.hpp:1-9 *)
Definition ev_generateBlocks bm v : outcome evaporation :=
  nr <- ixss_size bm v 1 ;;
  ne <- ixss_size bm v (1 + 2 * nr + 1) ;;
  t <- td_make bm (sub v (vbeg v) (adv (adv (vbeg v) (2 * nr)) (2 * ne) + 2)) ;;
  Ok (Evaporation v t).

(** src/ACEtk/base/EvaporationSpectrum/src/ctor.hpp:34-45 *)
Definition ev_of bm nbt int e t u : outcome evaporation :=
  l <- ev_generateXSS nbt int e t u ;; ev_generateBlocks bm (own l).

(** src/ACEtk/base/EvaporationSpectrum/src/ctor.hpp:55-63, verifySize.hpp:1-14 *)
Definition ev_make bm v : outcome evaporation :=
  nr <- (x <- xss bm v 1 ;; round_to_size x) ;;
  ne <- (x <- xss bm v (1 + 2 * nr + 1) ;; round_to_size x) ;;
  _ <- verify_at_least v (u32 (1 + 2 * nr + 1 + 2 * ne + 1)) ;;
  ev_generateBlocks bm v.

(** U(), src/ACEtk/base/EvaporationSpectrum.hpp:131: [*tabulated_.end()] *)
Definition ev_U (o : evaporation) : outcome double :=
  deref (buf (td_v (ev_tab o))) (vend (td_v (ev_tab o))).

(** front() / back() of a range: undefined if empty. *)
Definition front (l : list double) : outcome double :=
  match l with [] => UB | x :: _ => Ok x end.
Definition back (l : list double) : outcome double :=
  match rev l with [] => UB | x :: _ => Ok x end.

Lemma front_last_ok (l : list double) : l <> [] ->
  exists a b, front l = Ok a /\ back l = Ok b.
Proof.
  intros H. unfold front, back. destruct l as [|a l]; [congruence|].
  destruct (rev (a :: l)) as [|b r] eqn:E.
  - apply (f_equal (@length _)) in E. rewrite rev_length in E. discriminate.
  - eauto.
Qed.

(** minimumIncidentEnergy / maximumIncidentEnergy, EvaporationSpectrum.hpp:115-126 *)
Definition ev_emin bm o : outcome double := e <- td_x bm (ev_tab o) ;; front e.
Definition ev_emax bm o : outcome double := e <- td_x bm (ev_tab o) ;; back e.

Definition ev_shows bm o nbt int e t u : Prop :=
  td_shows bm (ev_tab o) nbt int e t /\ ev_U o = Ok u.

Definition ev_layout nbt int e t u := td_layout nbt int e t ++ [u].

Lemma ev_generateXSS_inv nbt int e t u l : ev_generateXSS nbt int e t u = Ok l ->
  len int = len nbt /\ len t = len e /\ l = ev_layout nbt int e t u.
Proof.
  unfold ev_generateXSS. destruct (td_generateXSS nbt int e t) as [l0| |] eqn:E; try discriminate.
  apply td_generateXSS_inv in E as (E1 & E2 & ->). cbn. intros H. injection H as <-. auto.
Qed.

Section Ev.
  Variables (bm : build) (v : view) (nbt int : list Z) (e t : list double) (u : double).
  Hypothesis E1 : len int = len nbt.
  Hypothesis E2 : len t = len e.
  Hypothesis Hv : has v (ev_layout nbt int e t u).

  Lemma ev_blocks_has : exists o, ev_generateBlocks bm v = Ok o /\ ev_v o = v /\ ev_shows bm o nbt int e t u.
  Proof.
    pose proof (has_app _ _ _ Hv) as Ht.
    pose proof (td_bounds _ _ _ _ _ E1 E2 Ht) as B. unfold ev_generateBlocks.
    rewrite (td_nr _ _ _ _ _ _ E1 E2 Ht). cbn [bind].
    rewrite (td_ne _ _ _ _ _ _ E1 E2 Ht). cbn [bind].
    rewrite !adv_small by lia.
    assert (Hs : content (sub v (vbeg v) (vbeg v + 2 * len nbt + 2 * len e + 2)) (td_layout nbt int e t)).
    { apply (sub_content v [] (td_layout nbt int e t) [u]); [exact Hv|slen; lia|].
      rewrite len_td_layout by assumption. slen; lia. }
    destruct (td_make_has bm _ _ _ _ _ E1 E2 (content_has _ _ Hs)) as (o & Mo & Vo & So).
    rewrite Mo. cbn [bind]. eexists; split; [reflexivity|]. split; [reflexivity|].
    split; [exact So|]. unfold ev_U. cbn [ev_tab]. rewrite Vo. cbn [buf vend sub].
    apply (deref_at v (td_layout nbt int e t) u []); [exact Hv|].
    rewrite len_td_layout by assumption. lia.
  Qed.

  Lemma ev_make_has : exists o, ev_make bm v = Ok o /\ ev_v o = v /\ ev_shows bm o nbt int e t u.
  Proof.
    pose proof (has_app _ _ _ Hv) as Ht.
    pose proof (td_bounds _ _ _ _ _ E1 E2 Ht) as B. unfold ev_make.
    rewrite (xss_round_size_at _ _ [] (len nbt) (map dbl nbt ++ map dbl int ++ dbl (len e) :: e ++ t));
      [|exact Ht|reflexivity|lia]. cbn [bind].
    rewrite (xss_round_size_at _ _ _ _ _ _ (td_has_ne _ _ _ _ _ Ht));
      [|slen; lia|lia]. cbn [bind].
    rewrite u32_small by
      (pose proof (has_bounds _ _ Hv) as B'; unfold ev_layout in B'; rewrite len_app, len_td_layout in B' by assumption; slen; lia).
    rewrite (verify_at_least_has _ _ _ Hv)
      by (unfold ev_layout; rewrite len_app, len_td_layout by assumption; slen; lia).
    exact ev_blocks_has.
  Qed.
End Ev.

(** * GeneralEvaporationSpectrum *)

(** src/ACEtk/continuous/GeneralEvaporationSpectrum.hpp:24-29 *)
Record generalEvaporation := GeneralEvaporation { ge_v : view; ge_tab : tabulatedData; ge_binsd : columnData }.

(** src/ACEtk/continuous/GeneralEvaporationSpectrum/src/generateXSS.hpp:1-23 *)
Definition ge_generateXSS nbt int e t (bins : list double) : outcome (list double) :=
  l <- td_generateXSS nbt int e t ;; Ok (l ++ dbl (len bins) :: bins).

(** .../generateBlocks.hpp:1-11 *)
Definition ge_generateBlocks bm v : outcome generalEvaporation :=
  nr <- ixss_size bm v 1 ;;
  ne <- ixss_size bm v (1 + 2 * nr + 1) ;;
  let bins := adv (adv (vbeg v) (2 * nr)) (2 * ne) + 2 in
  t <- td_make bm (sub v (vbeg v) bins) ;;
  b <- cd_make (sub v bins (vend v)) 1 ;;
  Ok (GeneralEvaporation v t b).

(** .../ctor.hpp:62-74 *)
Definition ge_of bm nbt int e t bins : outcome generalEvaporation :=
  l <- ge_generateXSS nbt int e t bins ;; ge_generateBlocks bm (own l).

(** .../ctor.hpp:98-106, verifySize.hpp:1-15 *)
Definition ge_make bm v : outcome generalEvaporation :=
  nr <- ixss_size bm v 1 ;;
  ne <- ixss_size bm v (1 + 2 * nr + 1) ;;
  nb <- ixss_size bm v (1 + 2 * nr + 1 + 2 * ne + 1) ;;
  _ <- verify_at_least v (u32 (1 + 2 * nr + 1 + 2 * ne + 1 + nb)) ;;
  ge_generateBlocks bm v.

(** NET(), bins(): GeneralEvaporationSpectrum.hpp:136-146; numberBins() = NET() - 1 *)
Definition ge_NET bm o : outcome Z := n <- cd_N bm (ge_binsd o) ;; Ok (s32 n).
Definition ge_numberBins bm o : outcome Z := n <- ge_NET bm o ;; Ok (n - 1).
Definition ge_bins bm o : outcome (list double) := cd_column bm (ge_binsd o) 1.
Definition ge_emin bm o : outcome double := e <- td_x bm (ge_tab o) ;; front e.
Definition ge_emax bm o : outcome double := e <- td_x bm (ge_tab o) ;; back e.

Definition ge_shows bm o nbt int e t bins : Prop :=
  td_shows bm (ge_tab o) nbt int e t /\ ge_NET bm o = Ok (len bins)
  /\ ge_numberBins bm o = Ok (len bins - 1) /\ ge_bins bm o = Ok bins.

Definition ge_layout nbt int e t bins := td_layout nbt int e t ++ dbl (len bins) :: bins.

Lemma ge_generateXSS_inv nbt int e t b l : ge_generateXSS nbt int e t b = Ok l ->
  len int = len nbt /\ len t = len e /\ l = ge_layout nbt int e t b.
Proof.
  unfold ge_generateXSS. destruct (td_generateXSS nbt int e t) as [l0| |] eqn:E; try discriminate.
  apply td_generateXSS_inv in E as (E1 & E2 & ->). cbn. intros H. injection H as <-. auto.
Qed.

Section Ge.
  Variables (bm : build) (v : view) (nbt int : list Z) (e t bins : list double).
  Hypothesis E1 : len int = len nbt.
  Hypothesis E2 : len t = len e.
  Hypothesis Hv : has v (ge_layout nbt int e t bins).

  Lemma ge_bounds : 3 + 2 * len nbt + 2 * len e + len bins < 2 ^ 31.
  Proof.
    pose proof (has_bounds _ _ Hv) as B. unfold ge_layout in B.
    rewrite len_app, len_td_layout in B by assumption. slen; lia.
  Qed.

  Lemma ge_blocks_has : exists o, ge_generateBlocks bm v = Ok o /\ ge_v o = v /\ ge_shows bm o nbt int e t bins.
  Proof.
    pose proof (has_app _ _ _ Hv) as Ht. pose proof ge_bounds as B0.
    pose proof (len_nonneg bins) as Lb.
    pose proof (td_bounds _ _ _ _ _ E1 E2 Ht) as B. unfold ge_generateBlocks.
    rewrite (td_nr _ _ _ _ _ _ E1 E2 Ht). cbn [bind].
    rewrite (td_ne _ _ _ _ _ _ E1 E2 Ht). cbn [bind].
    rewrite !adv_small by lia.
    assert (Hs : content (sub v (vbeg v) (vbeg v + 2 * len nbt + 2 * len e + 2)) (td_layout nbt int e t)).
    { apply (sub_content v [] (td_layout nbt int e t) (dbl (len bins) :: bins)); [exact Hv|slen; lia|].
      rewrite len_td_layout by assumption. slen; lia. }
    destruct (td_make_has bm _ _ _ _ _ E1 E2 (content_has _ _ Hs)) as (o & Mo & Vo & So).
    rewrite Mo. cbn [bind].
    assert (Hb : has (sub v (vbeg v + 2 * len nbt + 2 * len e + 2) (vend v)) (cd_layout (len bins) [bins])).
    { apply (sub_has_tail v (td_layout nbt int e t)).
      - apply (has_eq _ _ _ Hv). unfold ge_layout, cd_layout. las.
      - rewrite len_td_layout by assumption. lia. }
    assert (A : all_len (len bins) [bins]) by (repeat constructor).
    rewrite (cd_make_has _ _ _ A Hb ltac:(lia) 1 eq_refl). cbn [bind].
    eexists; split; [reflexivity|]. split; [reflexivity|].
    split; [exact So|].
    assert (N : ge_NET bm (GeneralEvaporation v o (ColumnData (sub v (vbeg v + 2 * len nbt + 2 * len e + 2) (vend v)) 1)) = Ok (len bins)).
    { unfold ge_NET. cbn [ge_binsd]. rewrite (cd_N_has bm _ _ _ Hb) by lia. cbn [bind]. rewrite s32_small by lia. reflexivity. }
    split; [exact N|]. split; [unfold ge_numberBins; rewrite N; reflexivity|].
    exact (cd_column_has bm _ _ _ A Hb ltac:(lia) 1 0 _ 1 eq_refl eq_refl).
  Qed.

  Lemma ge_make_has : exists o, ge_make bm v = Ok o /\ ge_v o = v /\ ge_shows bm o nbt int e t bins.
  Proof.
    pose proof (has_app _ _ _ Hv) as Ht. pose proof ge_bounds as B0.
    pose proof (len_nonneg bins) as Lb.
    pose proof (td_bounds _ _ _ _ _ E1 E2 Ht) as B. unfold ge_make.
    rewrite (td_nr _ _ _ _ _ _ E1 E2 Ht). cbn [bind].
    rewrite (td_ne _ _ _ _ _ _ E1 E2 Ht). cbn [bind].
    rewrite (ixss_size_at _ _ (td_layout nbt int e t) (len bins) bins);
      [|exact Hv|rewrite len_td_layout by assumption; lia|lia]. cbn [bind].
    rewrite u32_small by lia.
    rewrite (verify_at_least_has _ _ _ Hv)
      by (unfold ge_layout; rewrite len_app, len_td_layout by assumption; slen; lia).
    exact ge_blocks_has.
  Qed.
End Ge.

(** * EnergyDependentWattSpectrum *)

(** src/ACEtk/continuous/EnergyDependentWattSpectrum.hpp:22-27 *)
Record watt := Watt { wa_v : view; wa_a : tabulatedData; wa_b : tabulatedData }.

(** .../generateXSS.hpp:1-10; a and b are given by their XSS content. *)
Definition wa_generateXSS (a b : list double) (u : double) : list double := a ++ b ++ [u].

(** .../generateBlocks.hpp:1-14 *)
Definition wa_generateBlocks bm v : outcome watt :=
  nr <- ixss_size bm v 1 ;;
  ne <- ixss_size bm v (1 + 2 * nr + 1) ;;
  let begina := vbeg v in
  let beginb := adv (adv begina (2 * nr)) (2 * ne) + 2 in
  let distance := u64 (beginb - begina) in
  nrb <- ixss_size bm v (distance + 1) ;;
  neb <- ixss_size bm v (distance + 1 + 2 * nrb + 1) ;;
  let end_ := adv (adv beginb (2 * nrb)) (2 * neb) + 2 in
  a <- td_make bm (sub v begina beginb) ;;
  b <- td_make bm (sub v beginb end_) ;;
  Ok (Watt v a b).

(** .../ctor.hpp:60-68 *)
Definition wa_of bm a b u : outcome watt := wa_generateBlocks bm (own (wa_generateXSS a b u)).

(** .../ctor.hpp:78-88, verifySize.hpp:1-19 *)
Definition wa_make bm v : outcome watt :=
  nra <- ixss_size bm v 1 ;;
  nea <- ixss_size bm v (1 + 2 * nra + 1) ;;
  let size := 2 + 2 * nra + 2 * nea in
  nrb <- ixss_size bm v (size + 1) ;;
  neb <- ixss_size bm v (size + 1 + 2 * nrb + 1) ;;
  _ <- verify_at_least v (u32 (1 + 2 * nra + 1 + 2 * nea + 1 + 2 * nrb + 1 + 2 * neb + 1)) ;;
  wa_generateBlocks bm v.

(** U(), EnergyDependentWattSpectrum.hpp:83 *)
Definition wa_U (o : watt) : outcome double := deref (buf (td_v (wa_b o))) (vend (td_v (wa_b o))).
Definition wa_emin bm o : outcome double := e <- td_x bm (wa_a o) ;; front e.
Definition wa_emax bm o : outcome double := e <- td_x bm (wa_a o) ;; back e.

Section Watt.
  Variables (bm : build) (v : view).
  Variables (nbta inta : list Z) (xa ya : list double) (nbtb intb : list Z) (xb yb : list double) (u : double).
  Hypothesis E1 : len inta = len nbta.
  Hypothesis E2 : len ya = len xa.
  Hypothesis E3 : len intb = len nbtb.
  Hypothesis E4 : len yb = len xb.
  Let la := td_layout nbta inta xa ya.
  Let lb := td_layout nbtb intb xb yb.
  Hypothesis Hv : has v (wa_generateXSS la lb u).

  Definition wa_shows (o : watt) : Prop :=
    td_shows bm (wa_a o) nbta inta xa ya /\ td_shows bm (wa_b o) nbtb intb xb yb /\ wa_U o = Ok u.

  Let Ha : has v la.
  Proof. apply (has_app _ _ (lb ++ [u])). exact Hv. Qed.
  Let Hb : has v (la ++ lb).
  Proof. apply (has_app _ _ [u]). apply (has_eq _ _ _ Hv). unfold wa_generateXSS. las. Qed.
  Let La : len la = 2 + 2 * len nbta + 2 * len xa.
  Proof. apply len_td_layout; assumption. Qed.
  Let Lb : len lb = 2 + 2 * len nbtb + 2 * len xb.
  Proof. apply len_td_layout; assumption. Qed.
  Let B : len la + len lb + 1 < 2 ^ 31.
  Proof.
    pose proof (has_bounds _ _ Hv) as Bq. unfold wa_generateXSS in Bq.
    rewrite (len_app la), (len_app lb) in Bq. change (len [u]) with 1 in Bq. lia.
  Qed.

  Lemma wa_nrb : ixss_size bm v (len la + 1) = Ok (len nbtb).
  Proof.
    apply (ixss_size_at _ _ la _ (map dbl nbtb ++ map dbl intb ++ dbl (len xb) :: xb ++ yb)).
    - exact Hb.
    - reflexivity.
    - pose proof (len_nonneg nbtb); pose proof (len_nonneg xb); pose proof (len_nonneg la). lia.
  Qed.
  Lemma wa_neb : ixss_size bm v (len la + 1 + 2 * len nbtb + 1) = Ok (len xb).
  Proof.
    apply (ixss_size_at _ _ (la ++ dbl (len nbtb) :: map dbl nbtb ++ map dbl intb) _ (xb ++ yb)).
    - apply (has_eq _ _ _ Hb). unfold lb, td_layout. las.
    - slen; lia.
    - pose proof (len_nonneg nbtb); pose proof (len_nonneg xb); pose proof (len_nonneg la). lia.
  Qed.

  Lemma wa_blocks_has : exists o, wa_generateBlocks bm v = Ok o /\ wa_v o = v /\ wa_shows o.
  Proof.
    unfold wa_generateBlocks.
    pose proof (len_nonneg nbta); pose proof (len_nonneg xa); pose proof (len_nonneg nbtb); pose proof (len_nonneg xb).
    pose proof wa_nrb as N1. pose proof wa_neb as N2.
    rewrite (td_nr _ _ _ _ _ _ E1 E2 Ha). cbn [bind].
    rewrite (td_ne _ _ _ _ _ _ E1 E2 Ha). cbn [bind].
    rewrite !adv_small by lia.
    replace (vbeg v + 2 * len nbta + 2 * len xa + 2 - vbeg v) with (len la) by lia.
    rewrite u64_small by lia. rewrite N1. cbn [bind]. rewrite N2. cbn [bind].
    rewrite !adv_small by lia.
    assert (Sa : content (sub v (vbeg v) (vbeg v + 2 * len nbta + 2 * len xa + 2)) la).
    { apply (sub_content v [] la (lb ++ [u])); [exact Hv|slen; lia|slen; lia]. }
    destruct (td_make_has bm _ _ _ _ _ E1 E2 (content_has _ _ Sa)) as (oa & Ma & _ & Sha).
    rewrite Ma. cbn [bind].
    assert (Sb : content (sub v (vbeg v + 2 * len nbta + 2 * len xa + 2)
       (vbeg v + 2 * len nbta + 2 * len xa + 2 + 2 * len nbtb + 2 * len xb + 2)) lb).
    { apply (sub_content v la lb [u]); [exact Hv|lia|lia]. }
    destruct (td_make_has bm _ _ _ _ _ E3 E4 (content_has _ _ Sb)) as (ob & Mb & Vb & Shb).
    rewrite Mb. cbn [bind]. eexists; split; [reflexivity|]. split; [reflexivity|].
    split; [exact Sha|]. split; [exact Shb|].
    unfold wa_U. cbn [wa_b]. rewrite Vb. cbn [buf vend sub].
    apply (deref_at v (la ++ lb) u []); [apply (has_eq _ _ _ Hv); unfold wa_generateXSS; las|].
    slen. lia.
  Qed.

  Lemma wa_make_has : exists o, wa_make bm v = Ok o /\ wa_v o = v /\ wa_shows o.
  Proof.
    unfold wa_make.
    pose proof (len_nonneg nbta); pose proof (len_nonneg xa); pose proof (len_nonneg nbtb); pose proof (len_nonneg xb).
    pose proof wa_nrb as N1. pose proof wa_neb as N2.
    rewrite (td_nr _ _ _ _ _ _ E1 E2 Ha). cbn [bind].
    rewrite (td_ne _ _ _ _ _ _ E1 E2 Ha). cbn [bind].
    replace (2 + 2 * len nbta + 2 * len xa) with (len la) by lia.
    rewrite N1. cbn [bind]. rewrite N2. cbn [bind].
    rewrite u32_small by lia.
    rewrite (verify_at_least_has _ _ _ Hv) by (unfold wa_generateXSS; slen; lia).
    exact wa_blocks_has.
  Qed.
End Watt.

(** * A tabulated function after a fixed number of words *)

(** DelayedNeutronPrecursorData (src/ACEtk/continuous/DelayedNeutronPrecursorData.hpp:21-26,
    1 word: the decay constant), TabulatedFissionMultiplicity
    (TabulatedFissionMultiplicity.hpp:22-26, 1 word: LNU = 2),
    TabulatedSecondaryParticleMultiplicity
    (TabulatedSecondaryParticleMultiplicity.hpp:22-26, 2 words: MFTYPE and MT).
    generateBlocks of the three: TabulatedData( name, begin() + k, end() ).
    Their iterator constructors do nothing else. *)
Record prefixedTabulated := PrefixedTabulated { pt_v : view; pt_tab : tabulatedData }.
Definition pt_generateBlocks bm (k : Z) v : outcome prefixedTabulated :=
  t <- td_make bm (sub v (vbeg v + k) (vend v)) ;; Ok (PrefixedTabulated v t).
Definition pt_generateXSS (pre : list double) nbt int x y : outcome (list double) :=
  l <- td_generateXSS nbt int x y ;; Ok (pre ++ l).

Lemma pt_generateXSS_inv pre nbt int x y l : pt_generateXSS pre nbt int x y = Ok l ->
  len int = len nbt /\ len y = len x /\ l = pre ++ td_layout nbt int x y.
Proof.
  unfold pt_generateXSS. destruct (td_generateXSS nbt int x y) as [l0| |] eqn:E; try discriminate.
  apply td_generateXSS_inv in E as (E1 & E2 & ->). cbn. intros H. injection H as <-. auto.
Qed.

Lemma pt_has bm v pre nbt int x y k :
  len int = len nbt -> len y = len x -> has v (pre ++ td_layout nbt int x y) -> k = len pre ->
  exists o, pt_generateBlocks bm k v = Ok o /\ pt_v o = v /\ td_shows bm (pt_tab o) nbt int x y.
Proof.
  intros E1 E2 H ->. unfold pt_generateBlocks.
  pose proof (sub_has_tail v pre (td_layout nbt int x y) _ H eq_refl) as Hs.
  destruct (td_make_has bm _ _ _ _ _ E1 E2 Hs) as (o & Mo & _ & So).
  rewrite Mo. cbn. eexists; split; [reflexivity|]. split; [reflexivity|exact So].
Qed.

(** DelayedNeutronPrecursorData: ctor.hpp:63-75, 98-103; DEC() = XSS( 1 )
    (DelayedNeutronPrecursorData.hpp:44) *)
Record precursorData := PrecursorData { dp_number : Z; dp_tab : prefixedTabulated }.
Definition dp_generateXSS (lambda : double) nbt int x y := pt_generateXSS [lambda] nbt int x y.
Definition dp_make bm v (number : Z) : outcome precursorData :=
  t <- pt_generateBlocks bm 1 v ;; Ok (PrecursorData number t).
Definition dp_of bm (number : Z) lambda nbt int x y : outcome precursorData :=
  l <- dp_generateXSS lambda nbt int x y ;; dp_make bm (own l) number.
Definition dp_DEC bm o : outcome double := xss bm (pt_v (dp_tab o)) 1.

(** TabulatedFissionMultiplicity: generateXSS.hpp:1-15, LNU() TabulatedFissionMultiplicity.hpp:39-42 *)
Definition tf_generateXSS nbt int x y := pt_generateXSS [dbl 2] nbt int x y.
Definition tf_make bm v := pt_generateBlocks bm 1 v.
Definition tf_of bm nbt int x y : outcome prefixedTabulated :=
  l <- tf_generateXSS nbt int x y ;; tf_make bm (own l).
Definition tf_LNU bm o : outcome Z := n <- ixss bm (pt_v o) 1 ;; Ok (u32 n).

(** TabulatedSecondaryParticleMultiplicity: generateXSS.hpp:1-17,
    MFTYPE(), MT(): TabulatedSecondaryParticleMultiplicity.hpp:39-55 *)
Definition ts_generateXSS (mftype mt : Z) nbt int x y := pt_generateXSS [dbl mftype; dbl mt] nbt int x y.
Definition ts_make bm v := pt_generateBlocks bm 2 v.
Definition ts_of bm mftype mt nbt int x y : outcome prefixedTabulated :=
  l <- ts_generateXSS mftype mt nbt int x y ;; ts_make bm (own l).
Definition ts_MFTYPE bm o : outcome Z := n <- ixss bm (pt_v o) 1 ;; Ok (u32 n).
Definition ts_MT bm o : outcome Z := n <- ixss bm (pt_v o) 2 ;; Ok (u32 n).

Lemma dp_has bm v number lambda nbt int x y :
  len int = len nbt -> len y = len x -> has v (lambda :: td_layout nbt int x y) ->
  exists o, dp_make bm v number = Ok o /\ pt_v (dp_tab o) = v /\ dp_number o = number
    /\ dp_DEC bm o = Ok lambda /\ td_shows bm (pt_tab (dp_tab o)) nbt int x y.
Proof.
  intros E1 E2 H. destruct (pt_has bm v [lambda] _ _ _ _ 1 E1 E2 H eq_refl) as (o & Mo & Vo & So).
  unfold dp_make. rewrite Mo. cbn. eexists; split; [reflexivity|]. split; [exact Vo|]. split; [reflexivity|].
  split; [|exact So]. unfold dp_DEC. cbn [dp_tab]. rewrite Vo.
  apply (xss_at _ _ [] lambda (td_layout nbt int x y)); [exact H|reflexivity].
Qed.

Lemma tf_has bm v nbt int x y :
  len int = len nbt -> len y = len x -> has v (dbl 2 :: td_layout nbt int x y) ->
  exists o, tf_make bm v = Ok o /\ pt_v o = v /\ tf_LNU bm o = Ok 2
    /\ td_shows bm (pt_tab o) nbt int x y.
Proof.
  intros E1 E2 H. destruct (pt_has bm v [dbl 2] _ _ _ _ 1 E1 E2 H eq_refl) as (o & Mo & Vo & So).
  exists o. split; [exact Mo|]. split; [exact Vo|]. split; [|exact So].
  unfold tf_LNU. rewrite Vo. rewrite (ixss_at _ _ [] 2 (td_layout nbt int x y)) by (try exact H; try reflexivity; lia).
  reflexivity.
Qed.

Lemma ts_has bm v mftype mt nbt int x y :
  0 <= mftype < 2 ^ 31 -> 0 <= mt < 2 ^ 31 ->
  len int = len nbt -> len y = len x -> has v (dbl mftype :: dbl mt :: td_layout nbt int x y) ->
  exists o, ts_make bm v = Ok o /\ pt_v o = v /\ ts_MFTYPE bm o = Ok mftype /\ ts_MT bm o = Ok mt
    /\ td_shows bm (pt_tab o) nbt int x y.
Proof.
  intros B1 B2 E1 E2 H. destruct (pt_has bm v [dbl mftype; dbl mt] _ _ _ _ 2 E1 E2 H eq_refl) as (o & Mo & Vo & So).
  exists o. split; [exact Mo|]. split; [exact Vo|].
  split; [|split; [|exact So]].
  - unfold ts_MFTYPE. rewrite Vo.
    rewrite (ixss_at _ _ [] mftype (dbl mt :: td_layout nbt int x y)) by (try exact H; try reflexivity; lia).
    cbn. rewrite u32_small by lia. reflexivity.
  - unfold ts_MT. rewrite Vo.
    rewrite (ixss_at _ _ [dbl mftype] mt (td_layout nbt int x y)) by (try exact H; try reflexivity; lia).
    cbn [bind]. rewrite u32_small by lia. reflexivity.
Qed.
