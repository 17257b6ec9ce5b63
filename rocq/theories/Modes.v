(** Debug and Release: whatever succeeds in Debug gives the same result in Release.  Lemmas for C43; one per function that depends on the build mode. *)
From Coq Require Import ZArith Bool List Lia.
From Verif Require Import Float Base ColumnData TabulatedData BlockWithLocators Angular AngularBlock DistributionData EnergyLaws EnergyAngle SimpleLaws EnergyDist MultiDist FrameBlock EnergyBlocks DlwBlock Truncated ReactionNumbers NuBlock ElectronBlocks AtomicBlocks TableData DosimetryTable SZA ContinuousTable ThermalBlocks ThermalTable PhotoatomicTable PhotonuclearTable TableText Remake.
Import ListNotations.
Open Scope Z_scope.

Definition le {A} (debug release : outcome A) : Prop := forall x, debug = Ok x -> release = Ok x.
Lemma le_refl {A} (o : outcome A) : le o o.
Proof. intros x H. exact H. Qed.
Lemma le_throw {A} e (o : outcome A) : le (Throw e) o.
Proof. intros x H. discriminate H. Qed.
Lemma le_UB {A} (o : outcome A) : le UB o.
Proof. intros x H. discriminate H. Qed.
Lemma le_unit (o : outcome unit) : le o (Ok tt).
Proof. intros [] _. reflexivity. Qed.
Lemma le_bind {A B} (a b : outcome A) (f g : A -> outcome B) : le a b -> (forall x, le (f x) (g x)) -> le (bind a f) (bind b g).
Proof. intros L F y H. destruct a as [x| |]; [|discriminate H|discriminate H]. rewrite (L x eq_refl). cbn [bind] in *. exact (F x y H). Qed.
Lemma le_skip {A B} (a : outcome A) (f : A -> outcome B) b : (forall x, le (f x) b) -> le (bind a f) b.
Proof. intros F y H. destruct a as [x| |]; [|discriminate H|discriminate H]. exact (F x y H). Qed.
Lemma le_mapM {A B} (f g : A -> outcome B) l : (forall x, le (f x) (g x)) -> le (mapM f l) (mapM g l).
Proof.
  intros F. induction l as [|x l IH]; cbn [mapM]; [apply le_refl|]. apply le_bind; [apply F|]. intros y. apply le_bind; [exact IH|]. intros ys. apply le_refl.
Qed.
Lemma le_check o : le (check Debug o) (check Release o).
Proof. intros x _. destruct x. reflexivity. Qed.
Create HintDb mono.
#[export] Hint Resolve le_refl le_throw le_UB le_unit : mono.
Ltac mono_step :=
  match goal with
  | |- forall _, _ => intro
  | |- le ?a ?a => apply le_refl
  | |- le (Throw _) _ => apply le_throw
  | |- le UB _ => apply le_UB
  | |- le _ (Ok tt) => apply le_unit
  | |- le (check Debug _) (check Release _) => apply le_check
  | |- le (bind _ _) (bind _ _) => apply le_bind
  | |- le (mapM _ _) (mapM _ _) => apply le_mapM
  | H : forall _, le _ _ |- le _ _ => apply H
  | |- le (match ?x with _ => _ end) (match ?x with _ => _ end) => destruct x
  | |- le _ _ => progress cbv beta zeta
  | |- le _ _ => progress (change (debug Debug) with true; change (debug Release) with false; cbv iota)
  | |- le _ _ => solve [auto with mono]
  end.
Ltac mono := repeat mono_step.

(** Elements of a distribution: the words written depend on the locator, and on the build mode *)
Definition leR {A} (R : A -> A -> Prop) (a b : outcome A) : Prop := forall x, a = Ok x -> exists y, b = Ok y /\ R x y.
Definition elem_le (e1 e2 : dd_elem) : Prop := fst e1 = fst e2 /\ forall x, le (snd e1 x) (snd e2 x).
Lemma leR_ok {A} (R : A -> A -> Prop) x y : R x y -> leR R (Ok x) (Ok y).
Proof. intros H z E. injection E as <-. exists y. auto. Qed.
Lemma leR_elem_refl (o : outcome dd_elem) : leR elem_le o o.
Proof. intros x E. exists x. split; [exact E|]. split; [reflexivity|]. intros z. apply le_refl. Qed.
Lemma leR_bind {A B} (R : B -> B -> Prop) (a b : outcome A) (f g : A -> outcome B) : le a b -> (forall x, leR R (f x) (g x)) -> leR R (bind a f) (bind b g).
Proof. intros L F y H. destruct a as [x| |]; [|discriminate H|discriminate H]. rewrite (L x eq_refl). cbn [bind] in *. exact (F x y H). Qed.
Lemma le_bindR {A B} (R : A -> A -> Prop) (a b : outcome A) (f g : A -> outcome B) : leR R a b -> (forall x y, R x y -> le (f x) (g y)) -> le (bind a f) (bind b g).
Proof. intros L F y H. destruct a as [x| |]; [|discriminate H|discriminate H]. destruct (L x eq_refl) as (x' & -> & X). cbn [bind] in *. exact (F x x' X y H). Qed.
Lemma leR_mapM {A B} (R : B -> B -> Prop) (f g : A -> outcome B) l : (forall x, leR R (f x) (g x)) -> leR (Forall2 R) (mapM f l) (mapM g l).
Proof.
  intros F. induction l as [|x l IH]; cbn [mapM]; [apply leR_ok; constructor|]. intros ys H.
  destruct (f x) as [y| |] eqn:E; [|discriminate H|discriminate H]. destruct (F x y E) as (y' & -> & Ry). cbn [bind] in *.
  destruct (mapM f l) as [r| |]; [|discriminate H|discriminate H]. destruct (IH r eq_refl) as (r' & -> & Rr). cbn [bind] in *. injection H as <-. eexists. split; [reflexivity|]. constructor; assumption.
Qed.
Lemma le_dd_append ne offset es1 es2 : Forall2 elem_le es1 es2 -> forall index xss, le (dd_append ne offset index es1 xss) (dd_append ne offset index es2 xss).
Proof.
  intros F. induction F as [|[v1 w1] [v2 w2] es1 es2 [E W] _ IH]; intros index xss; cbn [dd_append]; [apply le_refl|]. cbn [fst snd] in *. subst v2.
  mono_step; [apply le_refl|]. intros x. cbv zeta. mono_step; [apply le_refl|]. intros y. mono_step; [apply W|]. intros z. apply IH.
Qed.
Lemma le_dd_generateXSS nbt int locb es1 es2 : Forall2 elem_le es1 es2 -> le (dd_generateXSS nbt int locb es1) (dd_generateXSS nbt int locb es2).
Proof.
  intros F. unfold dd_generateXSS. cbv zeta. rewrite (Forall2_len _ _ _ F). mono_step; [apply le_refl|]. intros x. mono_step; [apply le_dd_append; exact F|]. intros y. mono.
Qed.

(** ** Base *)
Lemma mono_iter : forall v index, le (Base.iter Debug v index) (Base.iter Release v index).
Proof. intros. unfold Base.iter. mono. Qed.
#[export] Hint Resolve mono_iter : mono.
Lemma mono_xss : forall v index, le (Base.xss Debug v index) (Base.xss Release v index).
Proof. intros. unfold Base.xss. mono. Qed.
#[export] Hint Resolve mono_xss : mono.
Lemma mono_ixss : forall v index, le (Base.ixss Debug v index) (Base.ixss Release v index).
Proof. intros. unfold Base.ixss. mono. Qed.
#[export] Hint Resolve mono_ixss : mono.
Lemma mono_ixss_size : forall v index, le (Base.ixss_size Debug v index) (Base.ixss_size Release v index).
Proof. intros. unfold Base.ixss_size. mono. Qed.
#[export] Hint Resolve mono_ixss_size : mono.
Lemma mono_xssr : forall v index length, le (Base.xssr Debug v index length) (Base.xssr Release v index length).
Proof. intros. unfold Base.xssr. mono. Qed.
#[export] Hint Resolve mono_xssr : mono.
Lemma mono_ixssr : forall v index length, le (Base.ixssr Debug v index length) (Base.ixssr Release v index length).
Proof. intros. unfold Base.ixssr. mono. Qed.
#[export] Hint Resolve mono_ixssr : mono.

(** ** ColumnData *)
Lemma mono_cd_N : forall c, le (ColumnData.cd_N Debug c) (ColumnData.cd_N Release c).
Proof. intros. unfold ColumnData.cd_N. mono. Qed.
#[export] Hint Resolve mono_cd_N : mono.
Lemma mono_cd_column : forall c column, le (ColumnData.cd_column Debug c column) (ColumnData.cd_column Release c column).
Proof. intros. unfold ColumnData.cd_column. mono. Qed.
#[export] Hint Resolve mono_cd_column : mono.
Lemma mono_cd_value : forall c column index, le (ColumnData.cd_value Debug c column index) (ColumnData.cd_value Release c column index).
Proof. intros. unfold ColumnData.cd_value. mono. Qed.
#[export] Hint Resolve mono_cd_value : mono.
Lemma mono_check : forall o, le (ColumnData.check Debug o) (ColumnData.check Release o).
Proof. intros. unfold ColumnData.check. mono. Qed.
#[export] Hint Resolve mono_check : mono.
Lemma mono_ad_dvalue : forall a array index, le (ColumnData.ad_dvalue Debug a array index) (ColumnData.ad_dvalue Release a array index).
Proof. intros. unfold ColumnData.ad_dvalue. mono. Qed.
#[export] Hint Resolve mono_ad_dvalue : mono.
Lemma mono_ad_ivalue : forall a array index, le (ColumnData.ad_ivalue Debug a array index) (ColumnData.ad_ivalue Release a array index).
Proof. intros. unfold ColumnData.ad_ivalue. mono. Qed.
#[export] Hint Resolve mono_ad_ivalue : mono.
Lemma mono_ad_darray : forall a index, le (ColumnData.ad_darray Debug a index) (ColumnData.ad_darray Release a index).
Proof. intros. unfold ColumnData.ad_darray. mono. Qed.
#[export] Hint Resolve mono_ad_darray : mono.
Lemma mono_ad_iarray : forall a index, le (ColumnData.ad_iarray Debug a index) (ColumnData.ad_iarray Release a index).
Proof. intros. unfold ColumnData.ad_iarray. mono. Qed.
#[export] Hint Resolve mono_ad_iarray : mono.
Lemma mono_id_NBT : forall c, le (ColumnData.id_NBT Debug c) (ColumnData.id_NBT Release c).
Proof. intros. unfold ColumnData.id_NBT. mono. Qed.
#[export] Hint Resolve mono_id_NBT : mono.
Lemma mono_id_INT : forall c, le (ColumnData.id_INT Debug c) (ColumnData.id_INT Release c).
Proof. intros. unfold ColumnData.id_INT. mono. Qed.
#[export] Hint Resolve mono_id_INT : mono.

(** ** TabulatedData *)
Lemma mono_td_generateBlocks : forall v, le (TabulatedData.td_generateBlocks Debug v) (TabulatedData.td_generateBlocks Release v).
Proof. intros. unfold TabulatedData.td_generateBlocks. mono. Qed.
#[export] Hint Resolve mono_td_generateBlocks : mono.
Lemma mono_td_of : forall nbt int x y, le (TabulatedData.td_of Debug nbt int x y) (TabulatedData.td_of Release nbt int x y).
Proof. intros. unfold TabulatedData.td_of. mono. Qed.
#[export] Hint Resolve mono_td_of : mono.
Lemma mono_td_make : forall v, le (TabulatedData.td_make Debug v) (TabulatedData.td_make Release v).
Proof. intros. unfold TabulatedData.td_make. mono. Qed.
#[export] Hint Resolve mono_td_make : mono.
Lemma mono_td_NB : forall o, le (TabulatedData.td_NB Debug o) (TabulatedData.td_NB Release o).
Proof. intros. unfold TabulatedData.td_NB. mono. Qed.
#[export] Hint Resolve mono_td_NB : mono.
Lemma mono_td_NBT : forall o, le (TabulatedData.td_NBT Debug o) (TabulatedData.td_NBT Release o).
Proof. intros. unfold TabulatedData.td_NBT. mono. Qed.
#[export] Hint Resolve mono_td_NBT : mono.
Lemma mono_td_INT : forall o, le (TabulatedData.td_INT Debug o) (TabulatedData.td_INT Release o).
Proof. intros. unfold TabulatedData.td_INT. mono. Qed.
#[export] Hint Resolve mono_td_INT : mono.
Lemma mono_td_N : forall o, le (TabulatedData.td_N Debug o) (TabulatedData.td_N Release o).
Proof. intros. unfold TabulatedData.td_N. mono. Qed.
#[export] Hint Resolve mono_td_N : mono.
Lemma mono_td_x : forall o, le (TabulatedData.td_x Debug o) (TabulatedData.td_x Release o).
Proof. intros. unfold TabulatedData.td_x. mono. Qed.
#[export] Hint Resolve mono_td_x : mono.
Lemma mono_td_y : forall o, le (TabulatedData.td_y Debug o) (TabulatedData.td_y Release o).
Proof. intros. unfold TabulatedData.td_y. mono. Qed.
#[export] Hint Resolve mono_td_y : mono.
Lemma mono_ev_generateBlocks : forall v, le (TabulatedData.ev_generateBlocks Debug v) (TabulatedData.ev_generateBlocks Release v).
Proof. intros. unfold TabulatedData.ev_generateBlocks. mono. Qed.
#[export] Hint Resolve mono_ev_generateBlocks : mono.
Lemma mono_ev_of : forall nbt int e t u, le (TabulatedData.ev_of Debug nbt int e t u) (TabulatedData.ev_of Release nbt int e t u).
Proof. intros. unfold TabulatedData.ev_of. mono. Qed.
#[export] Hint Resolve mono_ev_of : mono.
Lemma mono_ev_make : forall v, le (TabulatedData.ev_make Debug v) (TabulatedData.ev_make Release v).
Proof. intros. unfold TabulatedData.ev_make. mono. Qed.
#[export] Hint Resolve mono_ev_make : mono.
Lemma mono_ev_emin : forall o, le (TabulatedData.ev_emin Debug o) (TabulatedData.ev_emin Release o).
Proof. intros. unfold TabulatedData.ev_emin. mono. Qed.
#[export] Hint Resolve mono_ev_emin : mono.
Lemma mono_ev_emax : forall o, le (TabulatedData.ev_emax Debug o) (TabulatedData.ev_emax Release o).
Proof. intros. unfold TabulatedData.ev_emax. mono. Qed.
#[export] Hint Resolve mono_ev_emax : mono.
Lemma mono_ge_generateBlocks : forall v, le (TabulatedData.ge_generateBlocks Debug v) (TabulatedData.ge_generateBlocks Release v).
Proof. intros. unfold TabulatedData.ge_generateBlocks. mono. Qed.
#[export] Hint Resolve mono_ge_generateBlocks : mono.
Lemma mono_ge_of : forall nbt int e t bins, le (TabulatedData.ge_of Debug nbt int e t bins) (TabulatedData.ge_of Release nbt int e t bins).
Proof. intros. unfold TabulatedData.ge_of. mono. Qed.
#[export] Hint Resolve mono_ge_of : mono.
Lemma mono_ge_make : forall v, le (TabulatedData.ge_make Debug v) (TabulatedData.ge_make Release v).
Proof. intros. unfold TabulatedData.ge_make. mono. Qed.
#[export] Hint Resolve mono_ge_make : mono.
Lemma mono_ge_NET : forall o, le (TabulatedData.ge_NET Debug o) (TabulatedData.ge_NET Release o).
Proof. intros. unfold TabulatedData.ge_NET. mono. Qed.
#[export] Hint Resolve mono_ge_NET : mono.
Lemma mono_ge_numberBins : forall o, le (TabulatedData.ge_numberBins Debug o) (TabulatedData.ge_numberBins Release o).
Proof. intros. unfold TabulatedData.ge_numberBins. mono. Qed.
#[export] Hint Resolve mono_ge_numberBins : mono.
Lemma mono_ge_bins : forall o, le (TabulatedData.ge_bins Debug o) (TabulatedData.ge_bins Release o).
Proof. intros. unfold TabulatedData.ge_bins. mono. Qed.
#[export] Hint Resolve mono_ge_bins : mono.
Lemma mono_ge_emin : forall o, le (TabulatedData.ge_emin Debug o) (TabulatedData.ge_emin Release o).
Proof. intros. unfold TabulatedData.ge_emin. mono. Qed.
#[export] Hint Resolve mono_ge_emin : mono.
Lemma mono_ge_emax : forall o, le (TabulatedData.ge_emax Debug o) (TabulatedData.ge_emax Release o).
Proof. intros. unfold TabulatedData.ge_emax. mono. Qed.
#[export] Hint Resolve mono_ge_emax : mono.
Lemma mono_wa_generateBlocks : forall v, le (TabulatedData.wa_generateBlocks Debug v) (TabulatedData.wa_generateBlocks Release v).
Proof. intros. unfold TabulatedData.wa_generateBlocks. mono. Qed.
#[export] Hint Resolve mono_wa_generateBlocks : mono.
Lemma mono_wa_of : forall a b u, le (TabulatedData.wa_of Debug a b u) (TabulatedData.wa_of Release a b u).
Proof. intros. unfold TabulatedData.wa_of. mono. Qed.
#[export] Hint Resolve mono_wa_of : mono.
Lemma mono_wa_make : forall v, le (TabulatedData.wa_make Debug v) (TabulatedData.wa_make Release v).
Proof. intros. unfold TabulatedData.wa_make. mono. Qed.
#[export] Hint Resolve mono_wa_make : mono.
Lemma mono_wa_emin : forall o, le (TabulatedData.wa_emin Debug o) (TabulatedData.wa_emin Release o).
Proof. intros. unfold TabulatedData.wa_emin. mono. Qed.
#[export] Hint Resolve mono_wa_emin : mono.
Lemma mono_wa_emax : forall o, le (TabulatedData.wa_emax Debug o) (TabulatedData.wa_emax Release o).
Proof. intros. unfold TabulatedData.wa_emax. mono. Qed.
#[export] Hint Resolve mono_wa_emax : mono.
Lemma mono_pt_generateBlocks : forall k v, le (TabulatedData.pt_generateBlocks Debug k v) (TabulatedData.pt_generateBlocks Release k v).
Proof. intros. unfold TabulatedData.pt_generateBlocks. mono. Qed.
#[export] Hint Resolve mono_pt_generateBlocks : mono.
Lemma mono_dp_make : forall v number, le (TabulatedData.dp_make Debug v number) (TabulatedData.dp_make Release v number).
Proof. intros. unfold TabulatedData.dp_make. mono. Qed.
#[export] Hint Resolve mono_dp_make : mono.
Lemma mono_dp_of : forall number lambda nbt int x y, le (TabulatedData.dp_of Debug number lambda nbt int x y) (TabulatedData.dp_of Release number lambda nbt int x y).
Proof. intros. unfold TabulatedData.dp_of. mono. Qed.
#[export] Hint Resolve mono_dp_of : mono.
Lemma mono_dp_DEC : forall o, le (TabulatedData.dp_DEC Debug o) (TabulatedData.dp_DEC Release o).
Proof. intros. unfold TabulatedData.dp_DEC. mono. Qed.
#[export] Hint Resolve mono_dp_DEC : mono.
Lemma mono_tf_make : forall v, le (TabulatedData.tf_make Debug v) (TabulatedData.tf_make Release v).
Proof. intros. unfold TabulatedData.tf_make. mono. Qed.
#[export] Hint Resolve mono_tf_make : mono.
Lemma mono_tf_of : forall nbt int x y, le (TabulatedData.tf_of Debug nbt int x y) (TabulatedData.tf_of Release nbt int x y).
Proof. intros. unfold TabulatedData.tf_of. mono. Qed.
#[export] Hint Resolve mono_tf_of : mono.
Lemma mono_tf_LNU : forall o, le (TabulatedData.tf_LNU Debug o) (TabulatedData.tf_LNU Release o).
Proof. intros. unfold TabulatedData.tf_LNU. mono. Qed.
#[export] Hint Resolve mono_tf_LNU : mono.
Lemma mono_ts_make : forall v, le (TabulatedData.ts_make Debug v) (TabulatedData.ts_make Release v).
Proof. intros. unfold TabulatedData.ts_make. mono. Qed.
#[export] Hint Resolve mono_ts_make : mono.
Lemma mono_ts_of : forall mftype mt nbt int x y, le (TabulatedData.ts_of Debug mftype mt nbt int x y) (TabulatedData.ts_of Release mftype mt nbt int x y).
Proof. intros. unfold TabulatedData.ts_of. mono. Qed.
#[export] Hint Resolve mono_ts_of : mono.
Lemma mono_ts_MFTYPE : forall o, le (TabulatedData.ts_MFTYPE Debug o) (TabulatedData.ts_MFTYPE Release o).
Proof. intros. unfold TabulatedData.ts_MFTYPE. mono. Qed.
#[export] Hint Resolve mono_ts_MFTYPE : mono.
Lemma mono_ts_MT : forall o, le (TabulatedData.ts_MT Debug o) (TabulatedData.ts_MT Release o).
Proof. intros. unfold TabulatedData.ts_MT. mono. Qed.
#[export] Hint Resolve mono_ts_MT : mono.

(** ** BlockWithLocators *)
Lemma mono_bl_LLOC_ : forall v n locator index, le (BlockWithLocators.bl_LLOC_ Debug v n locator index) (BlockWithLocators.bl_LLOC_ Release v n locator index).
Proof. intros. unfold BlockWithLocators.bl_LLOC_. mono. Qed.
#[export] Hint Resolve mono_bl_LLOC_ : mono.
Lemma mono_bl_LLOC {D : Type} : forall o index, le (BlockWithLocators.bl_LLOC (D:=D) Debug o index) (BlockWithLocators.bl_LLOC (D:=D) Release o index).
Proof. intros. unfold BlockWithLocators.bl_LLOC. mono. Qed.
#[export] Hint Resolve mono_bl_LLOC : mono.
Lemma mono_bl_generateBlocks {D : Type} : forall gd1 gd2, (forall a b, le (gd1 a b) (gd2 a b)) -> forall v n locator iter_, le (BlockWithLocators.bl_generateBlocks (D:=D) Debug gd1 v n locator iter_) (BlockWithLocators.bl_generateBlocks (D:=D) Release gd2 v n locator iter_).
Proof. intros. unfold BlockWithLocators.bl_generateBlocks. mono. Qed.
#[export] Hint Resolve mono_bl_generateBlocks : mono.
Lemma mono_bl_of {D : Type} : forall gd1 gd2, (forall a b, le (gd1 a b) (gd2 a b)) -> forall locator blocks, le (BlockWithLocators.bl_of (D:=D) Debug gd1 locator blocks) (BlockWithLocators.bl_of (D:=D) Release gd2 locator blocks).
Proof. intros. unfold BlockWithLocators.bl_of. mono. Qed.
#[export] Hint Resolve mono_bl_of : mono.
Lemma mono_bl_make {D : Type} : forall gd1 gd2, (forall a b, le (gd1 a b) (gd2 a b)) -> forall v data n locator, le (BlockWithLocators.bl_make (D:=D) Debug gd1 v data n locator) (BlockWithLocators.bl_make (D:=D) Release gd2 v data n locator).
Proof. intros. unfold BlockWithLocators.bl_make. mono. Qed.
#[export] Hint Resolve mono_bl_make : mono.
Lemma mono_bl_datum {D : Type} : forall o index, le (BlockWithLocators.bl_datum (D:=D) Debug o index) (BlockWithLocators.bl_datum (D:=D) Release o index).
Proof. intros. unfold BlockWithLocators.bl_datum. mono. Qed.
#[export] Hint Resolve mono_bl_datum : mono.
Lemma mono_xs_energyIndex : forall v, le (BlockWithLocators.xs_energyIndex Debug v) (BlockWithLocators.xs_energyIndex Release v).
Proof. intros. unfold BlockWithLocators.xs_energyIndex. mono. Qed.
#[export] Hint Resolve mono_xs_energyIndex : mono.
Lemma mono_xs_numberValues : forall v, le (BlockWithLocators.xs_numberValues Debug v) (BlockWithLocators.xs_numberValues Release v).
Proof. intros. unfold BlockWithLocators.xs_numberValues. mono. Qed.
#[export] Hint Resolve mono_xs_numberValues : mono.
Lemma mono_xs_crossSections : forall v, le (BlockWithLocators.xs_crossSections Debug v) (BlockWithLocators.xs_crossSections Release v).
Proof. intros. unfold BlockWithLocators.xs_crossSections. mono. Qed.
#[export] Hint Resolve mono_xs_crossSections : mono.
Lemma mono_xs_make : forall v, le (BlockWithLocators.xs_make Debug v) (BlockWithLocators.xs_make Release v).
Proof. intros. unfold BlockWithLocators.xs_make. mono. Qed.
#[export] Hint Resolve mono_xs_make : mono.
Lemma mono_px_MFTYPE : forall v, le (BlockWithLocators.px_MFTYPE Debug v) (BlockWithLocators.px_MFTYPE Release v).
Proof. intros. unfold BlockWithLocators.px_MFTYPE. mono. Qed.
#[export] Hint Resolve mono_px_MFTYPE : mono.
Lemma mono_px_energyIndex : forall v, le (BlockWithLocators.px_energyIndex Debug v) (BlockWithLocators.px_energyIndex Release v).
Proof. intros. unfold BlockWithLocators.px_energyIndex. mono. Qed.
#[export] Hint Resolve mono_px_energyIndex : mono.
Lemma mono_px_numberValues : forall v, le (BlockWithLocators.px_numberValues Debug v) (BlockWithLocators.px_numberValues Release v).
Proof. intros. unfold BlockWithLocators.px_numberValues. mono. Qed.
#[export] Hint Resolve mono_px_numberValues : mono.
Lemma mono_px_crossSections : forall v, le (BlockWithLocators.px_crossSections Debug v) (BlockWithLocators.px_crossSections Release v).
Proof. intros. unfold BlockWithLocators.px_crossSections. mono. Qed.
#[export] Hint Resolve mono_px_crossSections : mono.
Lemma mono_px_make : forall v, le (BlockWithLocators.px_make Debug v) (BlockWithLocators.px_make Release v).
Proof. intros. unfold BlockWithLocators.px_make. mono. Qed.
#[export] Hint Resolve mono_px_make : mono.
Lemma mono_sig_generateData : forall w0 v, le (BlockWithLocators.sig_generateData Debug w0 v) (BlockWithLocators.sig_generateData Release w0 v).
Proof. intros. unfold BlockWithLocators.sig_generateData. mono. Qed.
#[export] Hint Resolve mono_sig_generateData : mono.
Lemma mono_sigp_generateData : forall w0 v, le (BlockWithLocators.sigp_generateData Debug w0 v) (BlockWithLocators.sigp_generateData Release w0 v).
Proof. intros. unfold BlockWithLocators.sigp_generateData. mono. Qed.
#[export] Hint Resolve mono_sigp_generateData : mono.
Lemma mono_sigh_generateData : forall w0 v, le (BlockWithLocators.sigh_generateData Debug w0 v) (BlockWithLocators.sigh_generateData Release w0 v).
Proof. intros. unfold BlockWithLocators.sigh_generateData. mono. Qed.
#[export] Hint Resolve mono_sigh_generateData : mono.

(** ** Angular *)
Lemma mono_tp_interpolation : forall v, le (Angular.tp_interpolation Debug v) (Angular.tp_interpolation Release v).
Proof. intros. unfold Angular.tp_interpolation. mono. Qed.
#[export] Hint Resolve mono_tp_interpolation : mono.
Lemma mono_tp_numberValues : forall v, le (Angular.tp_numberValues Debug v) (Angular.tp_numberValues Release v).
Proof. intros. unfold Angular.tp_numberValues. mono. Qed.
#[export] Hint Resolve mono_tp_numberValues : mono.
Lemma mono_tp_values : forall v, le (Angular.tp_values Debug v) (Angular.tp_values Release v).
Proof. intros. unfold Angular.tp_values. mono. Qed.
#[export] Hint Resolve mono_tp_values : mono.
Lemma mono_tp_pdf : forall v, le (Angular.tp_pdf Debug v) (Angular.tp_pdf Release v).
Proof. intros. unfold Angular.tp_pdf. mono. Qed.
#[export] Hint Resolve mono_tp_pdf : mono.
Lemma mono_tp_cdf : forall v, le (Angular.tp_cdf Debug v) (Angular.tp_cdf Release v).
Proof. intros. unfold Angular.tp_cdf. mono. Qed.
#[export] Hint Resolve mono_tp_cdf : mono.
Lemma mono_tp_column : forall v index, le (Angular.tp_column Debug v index) (Angular.tp_column Release v index).
Proof. intros. unfold Angular.tp_column. mono. Qed.
#[export] Hint Resolve mono_tp_column : mono.
Lemma mono_tp_make : forall v, le (Angular.tp_make Debug v) (Angular.tp_make Release v).
Proof. intros. unfold Angular.tp_make. mono. Qed.
#[export] Hint Resolve mono_tp_make : mono.
Lemma mono_eq_cosines : forall v, le (Angular.eq_cosines Debug v) (Angular.eq_cosines Release v).
Proof. intros. unfold Angular.eq_cosines. mono. Qed.
#[export] Hint Resolve mono_eq_cosines : mono.
Lemma mono_ta_make : forall e v, le (Angular.ta_make Debug e v) (Angular.ta_make Release e v).
Proof. intros. unfold Angular.ta_make. mono. Qed.
#[export] Hint Resolve mono_ta_make : mono.
Lemma mono_an_verify : forall values index, le (Angular.an_verify Debug values index) (Angular.an_verify Release values index).
Proof. intros. unfold Angular.an_verify. mono. Qed.
#[export] Hint Resolve mono_an_verify : mono.
Lemma mono_an_incidentEnergy : forall values index, le (Angular.an_incidentEnergy Debug values index) (Angular.an_incidentEnergy Release values index).
Proof. intros. unfold Angular.an_incidentEnergy. mono. Qed.
#[export] Hint Resolve mono_an_incidentEnergy : mono.
Lemma mono_an_LOCC : forall values index, le (Angular.an_LOCC Debug values index) (Angular.an_LOCC Release values index).
Proof. intros. unfold Angular.an_LOCC. mono. Qed.
#[export] Hint Resolve mono_an_LOCC : mono.
Lemma mono_an_relative : forall locb values index, le (Angular.an_relative Debug locb values index) (Angular.an_relative Release locb values index).
Proof. intros. unfold Angular.an_relative. mono. Qed.
#[export] Hint Resolve mono_an_relative : mono.
Lemma mono_an_right : forall v locb values locator nexts, le (Angular.an_right Debug v locb values locator nexts) (Angular.an_right Release v locb values locator nexts).
Proof. intros until nexts. revert locator. induction nexts as [|? ? IH]; intros; cbn [Angular.an_right]; mono. Qed.
#[export] Hint Resolve mono_an_right : mono.
Lemma mono_an_distribution : forall v locb values ne index, le (Angular.an_distribution Debug v locb values ne index) (Angular.an_distribution Release v locb values ne index).
Proof. intros. unfold Angular.an_distribution. mono. Qed.
#[export] Hint Resolve mono_an_distribution : mono.
Lemma mono_an_generateBlocks : forall locb v, le (Angular.an_generateBlocks Debug locb v) (Angular.an_generateBlocks Release locb v).
Proof. intros. unfold Angular.an_generateBlocks. mono. Qed.
#[export] Hint Resolve mono_an_generateBlocks : mono.
Lemma mono_an_of : forall srt ds locb, le (Angular.an_of Debug srt ds locb) (Angular.an_of Release srt ds locb).
Proof. intros. unfold Angular.an_of. mono. Qed.
#[export] Hint Resolve mono_an_of : mono.
Lemma mono_an_make : forall locb v, le (Angular.an_make Debug locb v) (Angular.an_make Release locb v).
Proof. intros. unfold Angular.an_make. mono. Qed.
#[export] Hint Resolve mono_an_make : mono.
Lemma mono_an_NE : forall o, le (Angular.an_NE Debug o) (Angular.an_NE Release o).
Proof. intros. unfold Angular.an_NE. mono. Qed.
#[export] Hint Resolve mono_an_NE : mono.
Lemma mono_an_incidentEnergies : forall o, le (Angular.an_incidentEnergies Debug o) (Angular.an_incidentEnergies Release o).
Proof. intros. unfold Angular.an_incidentEnergies. mono. Qed.
#[export] Hint Resolve mono_an_incidentEnergies : mono.
Lemma mono_an_datum : forall o index, le (Angular.an_datum Debug o index) (Angular.an_datum Release o index).
Proof. intros. unfold Angular.an_datum. mono. Qed.
#[export] Hint Resolve mono_an_datum : mono.

(** ** AngularBlock *)
Lemma mono_ab_append : forall srt nr index ds xss, le (AngularBlock.ab_append Debug srt nr index ds xss) (AngularBlock.ab_append Release srt nr index ds xss).
Proof. intros until ds. revert index. induction ds as [|? ? IH]; intros; cbn [AngularBlock.ab_append]; mono. Qed.
#[export] Hint Resolve mono_ab_append : mono.
Lemma mono_ab_generateXSS : forall srt ds, le (AngularBlock.ab_generateXSS Debug srt ds) (AngularBlock.ab_generateXSS Release srt ds).
Proof. intros. unfold AngularBlock.ab_generateXSS. mono. Qed.
#[export] Hint Resolve mono_ab_generateXSS : mono.
Lemma mono_ab_LAND_ : forall v nr zero index, le (AngularBlock.ab_LAND_ Debug v nr zero index) (AngularBlock.ab_LAND_ Release v nr zero index).
Proof. intros. unfold AngularBlock.ab_LAND_. mono. Qed.
#[export] Hint Resolve mono_ab_LAND_ : mono.
Lemma mono_ab_LAND : forall o index, le (AngularBlock.ab_LAND Debug o index) (AngularBlock.ab_LAND Release o index).
Proof. intros. unfold AngularBlock.ab_LAND. mono. Qed.
#[export] Hint Resolve mono_ab_LAND : mono.
Lemma mono_ab_isFullyIsotropic : forall o index, le (AngularBlock.ab_isFullyIsotropic Debug o index) (AngularBlock.ab_isFullyIsotropic Release o index).
Proof. intros. unfold AngularBlock.ab_isFullyIsotropic. mono. Qed.
#[export] Hint Resolve mono_ab_isFullyIsotropic : mono.
Lemma mono_ab_isGiven : forall o index, le (AngularBlock.ab_isGiven Debug o index) (AngularBlock.ab_isGiven Release o index).
Proof. intros. unfold AngularBlock.ab_isGiven. mono. Qed.
#[export] Hint Resolve mono_ab_isGiven : mono.
Lemma mono_ab_right : forall v nr zero xand locator nexts, le (AngularBlock.ab_right Debug v nr zero xand locator nexts) (AngularBlock.ab_right Release v nr zero xand locator nexts).
Proof. intros until nexts. revert locator. induction nexts as [|? ? IH]; intros; cbn [AngularBlock.ab_right]; mono. Qed.
#[export] Hint Resolve mono_ab_right : mono.
Lemma mono_ab_distribution : forall v nr zero iter_ index, le (AngularBlock.ab_distribution Debug v nr zero iter_ index) (AngularBlock.ab_distribution Release v nr zero iter_ index).
Proof. intros. unfold AngularBlock.ab_distribution. mono. Qed.
#[export] Hint Resolve mono_ab_distribution : mono.
Lemma mono_ab_generateBlocks : forall v nr zero iter_, le (AngularBlock.ab_generateBlocks Debug v nr zero iter_) (AngularBlock.ab_generateBlocks Release v nr zero iter_).
Proof. intros. unfold AngularBlock.ab_generateBlocks. mono. Qed.
#[export] Hint Resolve mono_ab_generateBlocks : mono.
Lemma mono_ab_of : forall srt zero ds nr, le (AngularBlock.ab_of Debug srt zero ds nr) (AngularBlock.ab_of Release srt zero ds nr).
Proof. intros. unfold AngularBlock.ab_of. mono. Qed.
#[export] Hint Resolve mono_ab_of : mono.
Lemma mono_ab_of_data : forall srt ds, le (AngularBlock.ab_of_data Debug srt ds) (AngularBlock.ab_of_data Release srt ds).
Proof. intros. unfold AngularBlock.ab_of_data. mono. Qed.
#[export] Hint Resolve mono_ab_of_data : mono.
Lemma mono_ab_of_elastic : forall srt d0 ds, le (AngularBlock.ab_of_elastic Debug srt d0 ds) (AngularBlock.ab_of_elastic Release srt d0 ds).
Proof. intros. unfold AngularBlock.ab_of_elastic. mono. Qed.
#[export] Hint Resolve mono_ab_of_elastic : mono.
Lemma mono_ab_make : forall v data nr zero, le (AngularBlock.ab_make Debug v data nr zero) (AngularBlock.ab_make Release v data nr zero).
Proof. intros. unfold AngularBlock.ab_make. mono. Qed.
#[export] Hint Resolve mono_ab_make : mono.
Lemma mono_ab_datum : forall o index, le (AngularBlock.ab_datum Debug o index) (AngularBlock.ab_datum Release o index).
Proof. intros. unfold AngularBlock.ab_datum. mono. Qed.
#[export] Hint Resolve mono_ab_datum : mono.

(** ** DistributionData *)
Lemma mono_dd_verify : forall values index, le (DistributionData.dd_verify Debug values index) (DistributionData.dd_verify Release values index).
Proof. intros. unfold DistributionData.dd_verify. mono. Qed.
#[export] Hint Resolve mono_dd_verify : mono.
Lemma mono_dd_value : forall values column index, le (DistributionData.dd_value Debug values column index) (DistributionData.dd_value Release values column index).
Proof. intros. unfold DistributionData.dd_value. mono. Qed.
#[export] Hint Resolve mono_dd_value : mono.
Lemma mono_dd_LOCC : forall values index, le (DistributionData.dd_LOCC Debug values index) (DistributionData.dd_LOCC Release values index).
Proof. intros. unfold DistributionData.dd_LOCC. mono. Qed.
#[export] Hint Resolve mono_dd_LOCC : mono.
Lemma mono_dd_relative : forall conv locb values index, le (DistributionData.dd_relative Debug conv locb values index) (DistributionData.dd_relative Release conv locb values index).
Proof. intros. unfold DistributionData.dd_relative. mono. Qed.
#[export] Hint Resolve mono_dd_relative : mono.
Lemma mono_dd_right : forall rel1 rel2, (forall a, le (rel1 a) (rel2 a)) -> forall v locator nexts, le (DistributionData.dd_right Debug v rel1 locator nexts) (DistributionData.dd_right Release v rel2 locator nexts).
Proof. intros until nexts. revert locator. induction nexts as [|? ? IH]; intros; cbn [DistributionData.dd_right]; mono. Qed.
#[export] Hint Resolve mono_dd_right : mono.
Lemma mono_dd_distribution {D : Type} : forall gd1 gd2, (forall a b c, le (gd1 a b c) (gd2 a b c)) -> forall conv v locb values n index, le (DistributionData.dd_distribution (D:=D) Debug gd1 conv v locb values n index) (DistributionData.dd_distribution (D:=D) Release gd2 conv v locb values n index).
Proof. intros. unfold DistributionData.dd_distribution. mono. Qed.
#[export] Hint Resolve mono_dd_distribution : mono.
Lemma mono_dd_generateBlocks {D : Type} : forall gd1 gd2, (forall a b c, le (gd1 a b c) (gd2 a b c)) -> forall locb v, le (DistributionData.dd_generateBlocks (D:=D) Debug gd1 locb v) (DistributionData.dd_generateBlocks (D:=D) Release gd2 locb v).
Proof. intros. unfold DistributionData.dd_generateBlocks. mono. Qed.
#[export] Hint Resolve mono_dd_generateBlocks : mono.
Lemma mono_dd_of {D : Type} : forall gd1 gd2, (forall a b c, le (gd1 a b c) (gd2 a b c)) -> forall nbt int es locb, le (DistributionData.dd_of (D:=D) Debug gd1 nbt int es locb) (DistributionData.dd_of (D:=D) Release gd2 nbt int es locb).
Proof. intros. unfold DistributionData.dd_of. mono. Qed.
#[export] Hint Resolve mono_dd_of : mono.
Lemma mono_dd_make {D : Type} : forall gd1 gd2, (forall a b c, le (gd1 a b c) (gd2 a b c)) -> forall locb v, le (DistributionData.dd_make (D:=D) Debug gd1 locb v) (DistributionData.dd_make (D:=D) Release gd2 locb v).
Proof. intros. unfold DistributionData.dd_make. mono. Qed.
#[export] Hint Resolve mono_dd_make : mono.
Lemma mono_dd_NB {D : Type} : forall o, le (DistributionData.dd_NB (D:=D) Debug o) (DistributionData.dd_NB (D:=D) Release o).
Proof. intros. unfold DistributionData.dd_NB. mono. Qed.
#[export] Hint Resolve mono_dd_NB : mono.
Lemma mono_dd_NBT {D : Type} : forall o, le (DistributionData.dd_NBT (D:=D) Debug o) (DistributionData.dd_NBT (D:=D) Release o).
Proof. intros. unfold DistributionData.dd_NBT. mono. Qed.
#[export] Hint Resolve mono_dd_NBT : mono.
Lemma mono_dd_INT {D : Type} : forall o, le (DistributionData.dd_INT (D:=D) Debug o) (DistributionData.dd_INT (D:=D) Release o).
Proof. intros. unfold DistributionData.dd_INT. mono. Qed.
#[export] Hint Resolve mono_dd_INT : mono.
Lemma mono_dd_N {D : Type} : forall o, le (DistributionData.dd_N (D:=D) Debug o) (DistributionData.dd_N (D:=D) Release o).
Proof. intros. unfold DistributionData.dd_N. mono. Qed.
#[export] Hint Resolve mono_dd_N : mono.
Lemma mono_dd_energies {D : Type} : forall o, le (DistributionData.dd_energies (D:=D) Debug o) (DistributionData.dd_energies (D:=D) Release o).
Proof. intros. unfold DistributionData.dd_energies. mono. Qed.
#[export] Hint Resolve mono_dd_energies : mono.
Lemma mono_dd_energy {D : Type} : forall o index, le (DistributionData.dd_energy (D:=D) Debug o index) (DistributionData.dd_energy (D:=D) Release o index).
Proof. intros. unfold DistributionData.dd_energy. mono. Qed.
#[export] Hint Resolve mono_dd_energy : mono.
Lemma mono_dd_locator {D : Type} : forall o index, le (DistributionData.dd_locator (D:=D) Debug o index) (DistributionData.dd_locator (D:=D) Release o index).
Proof. intros. unfold DistributionData.dd_locator. mono. Qed.
#[export] Hint Resolve mono_dd_locator : mono.
Lemma mono_dd_rel {D : Type} : forall o index, le (DistributionData.dd_rel (D:=D) Debug o index) (DistributionData.dd_rel (D:=D) Release o index).
Proof. intros. unfold DistributionData.dd_rel. mono. Qed.
#[export] Hint Resolve mono_dd_rel : mono.
Lemma mono_dd_datum {D : Type} : forall o index, le (DistributionData.dd_datum (D:=D) Debug o index) (DistributionData.dd_datum (D:=D) Release o index).
Proof. intros. unfold DistributionData.dd_datum. mono. Qed.
#[export] Hint Resolve mono_dd_datum : mono.
Lemma mono_dd_emin {D : Type} : forall o, le (DistributionData.dd_emin (D:=D) Debug o) (DistributionData.dd_emin (D:=D) Release o).
Proof. intros. unfold DistributionData.dd_emin. mono. Qed.
#[export] Hint Resolve mono_dd_emin : mono.
Lemma mono_dd_emax {D : Type} : forall o, le (DistributionData.dd_emax (D:=D) Debug o) (DistributionData.dd_emax (D:=D) Release o).
Proof. intros. unfold DistributionData.dd_emax. mono. Qed.
#[export] Hint Resolve mono_dd_emax : mono.
Lemma mono_di_generateBlocks {D : Type} : forall gd1 gd2, (forall a b c, le (gd1 a b c) (gd2 a b c)) -> forall locb v, le (DistributionData.di_generateBlocks (D:=D) Debug gd1 locb v) (DistributionData.di_generateBlocks (D:=D) Release gd2 locb v).
Proof. intros. unfold DistributionData.di_generateBlocks. mono. Qed.
#[export] Hint Resolve mono_di_generateBlocks : mono.
Lemma mono_di_of {D : Type} : forall gd1 gd2, (forall a b c, le (gd1 a b c) (gd2 a b c)) -> forall interpolation es locb, le (DistributionData.di_of (D:=D) Debug gd1 interpolation es locb) (DistributionData.di_of (D:=D) Release gd2 interpolation es locb).
Proof. intros. unfold DistributionData.di_of. mono. Qed.
#[export] Hint Resolve mono_di_of : mono.
Lemma mono_di_make {D : Type} : forall gd1 gd2, (forall a b c, le (gd1 a b c) (gd2 a b c)) -> forall locb v, le (DistributionData.di_make (D:=D) Debug gd1 locb v) (DistributionData.di_make (D:=D) Release gd2 locb v).
Proof. intros. unfold DistributionData.di_make. mono. Qed.
#[export] Hint Resolve mono_di_make : mono.
Lemma mono_di_interpolation {D : Type} : forall o, le (DistributionData.di_interpolation (D:=D) Debug o) (DistributionData.di_interpolation (D:=D) Release o).
Proof. intros. unfold DistributionData.di_interpolation. mono. Qed.
#[export] Hint Resolve mono_di_interpolation : mono.
Lemma mono_di_N {D : Type} : forall o, le (DistributionData.di_N (D:=D) Debug o) (DistributionData.di_N (D:=D) Release o).
Proof. intros. unfold DistributionData.di_N. mono. Qed.
#[export] Hint Resolve mono_di_N : mono.
Lemma mono_di_column {D : Type} : forall o c, le (DistributionData.di_column (D:=D) Debug o c) (DistributionData.di_column (D:=D) Release o c).
Proof. intros. unfold DistributionData.di_column. mono. Qed.
#[export] Hint Resolve mono_di_column : mono.
Lemma mono_di_value {D : Type} : forall o c index, le (DistributionData.di_value (D:=D) Debug o c index) (DistributionData.di_value (D:=D) Release o c index).
Proof. intros. unfold DistributionData.di_value. mono. Qed.
#[export] Hint Resolve mono_di_value : mono.
Lemma mono_di_rel {D : Type} : forall o index, le (DistributionData.di_rel (D:=D) Debug o index) (DistributionData.di_rel (D:=D) Release o index).
Proof. intros. unfold DistributionData.di_rel. mono. Qed.
#[export] Hint Resolve mono_di_rel : mono.
Lemma mono_di_datum {D : Type} : forall o index, le (DistributionData.di_datum (D:=D) Debug o index) (DistributionData.di_datum (D:=D) Release o index).
Proof. intros. unfold DistributionData.di_datum. mono. Qed.
#[export] Hint Resolve mono_di_datum : mono.

(** ** EnergyLaws *)
Lemma mono_tq_make : forall value locb v, le (EnergyLaws.tq_make Debug value locb v) (EnergyLaws.tq_make Release value locb v).
Proof. intros. unfold EnergyLaws.tq_make. mono. Qed.
#[export] Hint Resolve mono_tq_make : mono.
Lemma mono_tq_interpolation : forall o, le (EnergyLaws.tq_interpolation Debug o) (EnergyLaws.tq_interpolation Release o).
Proof. intros. unfold EnergyLaws.tq_interpolation. mono. Qed.
#[export] Hint Resolve mono_tq_interpolation : mono.
Lemma mono_tq_numberDiscrete : forall o, le (EnergyLaws.tq_numberDiscrete Debug o) (EnergyLaws.tq_numberDiscrete Release o).
Proof. intros. unfold EnergyLaws.tq_numberDiscrete. mono. Qed.
#[export] Hint Resolve mono_tq_numberDiscrete : mono.
Lemma mono_og_of : forall nbt int ds locb, le (EnergyLaws.og_of Debug nbt int ds locb) (EnergyLaws.og_of Release nbt int ds locb).
Proof. intros. unfold EnergyLaws.og_of. mono. Qed.
#[export] Hint Resolve mono_og_of : mono.
Lemma mono_og_make : forall locb v, le (EnergyLaws.og_make Debug locb v) (EnergyLaws.og_make Release locb v).
Proof. intros. unfold EnergyLaws.og_make. mono. Qed.
#[export] Hint Resolve mono_og_make : mono.
Lemma mono_ae_of : forall d locb, le (EnergyLaws.ae_of Debug d locb) (EnergyLaws.ae_of Release d locb).
Proof. intros. unfold EnergyLaws.ae_of. mono. Qed.
#[export] Hint Resolve mono_ae_of : mono.
Lemma mono_ae_make : forall value locb v, le (EnergyLaws.ae_make Debug value locb v) (EnergyLaws.ae_make Release value locb v).
Proof. intros. unfold EnergyLaws.ae_make. mono. Qed.
#[export] Hint Resolve mono_ae_make : mono.
Lemma mono_ae_elem : forall d, leR elem_le (ae_elem Debug d) (ae_elem Release d).
Proof. intros d. unfold ae_elem. apply leR_bind; [auto with mono|]. intros o. apply leR_ok. split; [reflexivity|]. cbn [snd]. mono. Qed.
Lemma mono_aed_generateXSS : forall nbt int locb ds, le (aed_generateXSS Debug nbt int locb ds) (aed_generateXSS Release nbt int locb ds).
Proof. intros. unfold aed_generateXSS. apply le_bindR with (R := Forall2 elem_le); [apply leR_mapM; exact mono_ae_elem|]. intros es1 es2 F. apply le_dd_generateXSS. exact F. Qed.
#[export] Hint Resolve mono_aed_generateXSS : mono.
Lemma mono_aed_of : forall nbt int ds locb, le (aed_of Debug nbt int ds locb) (aed_of Release nbt int ds locb).
Proof.
  intros. unfold aed_of. apply le_bindR with (R := Forall2 elem_le); [apply leR_mapM; exact mono_ae_elem|]. intros es1 es2 F.
  unfold dd_of. apply le_bind; [apply le_dd_generateXSS; exact F|mono].
Qed.
#[export] Hint Resolve mono_aed_of : mono.
Lemma mono_aed_make : forall locb v, le (EnergyLaws.aed_make Debug locb v) (EnergyLaws.aed_make Release locb v).
Proof. intros. unfold EnergyLaws.aed_make. mono. Qed.
#[export] Hint Resolve mono_aed_make : mono.

(** ** EnergyAngle *)
Lemma mono_tw_make : forall e p c v, le (EnergyAngle.tw_make Debug e p c v) (EnergyAngle.tw_make Release e p c v).
Proof. intros. unfold EnergyAngle.tw_make. mono. Qed.
#[export] Hint Resolve mono_tw_make : mono.
Lemma mono_ea_distribution : forall v locb values n index, le (EnergyAngle.ea_distribution Debug v locb values n index) (EnergyAngle.ea_distribution Release v locb values n index).
Proof. intros. unfold EnergyAngle.ea_distribution. mono. Qed.
#[export] Hint Resolve mono_ea_distribution : mono.
Lemma mono_ea_generateBlocks : forall locb v, le (EnergyAngle.ea_generateBlocks Debug locb v) (EnergyAngle.ea_generateBlocks Release locb v).
Proof. intros. unfold EnergyAngle.ea_generateBlocks. mono. Qed.
#[export] Hint Resolve mono_ea_generateBlocks : mono.
Lemma mono_ea_build : forall interpolation es locb, le (EnergyAngle.ea_build Debug interpolation es locb) (EnergyAngle.ea_build Release interpolation es locb).
Proof. intros. unfold EnergyAngle.ea_build. mono. Qed.
#[export] Hint Resolve mono_ea_build : mono.
Lemma mono_ea_read : forall locb v, le (EnergyAngle.ea_read Debug locb v) (EnergyAngle.ea_read Release locb v).
Proof. intros. unfold EnergyAngle.ea_read. mono. Qed.
#[export] Hint Resolve mono_ea_read : mono.
Lemma mono_ea_of : forall d locb, le (EnergyAngle.ea_of Debug d locb) (EnergyAngle.ea_of Release d locb).
Proof. intros. unfold EnergyAngle.ea_of. mono. Qed.
#[export] Hint Resolve mono_ea_of : mono.
Lemma mono_ea_make : forall value locb v, le (EnergyAngle.ea_make Debug value locb v) (EnergyAngle.ea_make Release value locb v).
Proof. intros. unfold EnergyAngle.ea_make. mono. Qed.
#[export] Hint Resolve mono_ea_make : mono.
Lemma mono_ea_elem_of : forall d, leR elem_le (ea_elem_of Debug d) (ea_elem_of Release d).
Proof. intros d. unfold ea_elem_of. apply leR_bind; [auto with mono|]. intros o. apply leR_ok. split; [reflexivity|]. cbn [snd]. mono. Qed.
Lemma mono_ead_generateXSS : forall nbt int locb ds, le (ead_generateXSS Debug nbt int locb ds) (ead_generateXSS Release nbt int locb ds).
Proof. intros. unfold ead_generateXSS. apply le_bindR with (R := Forall2 elem_le); [apply leR_mapM; exact mono_ea_elem_of|]. intros es1 es2 F. apply le_dd_generateXSS. exact F. Qed.
#[export] Hint Resolve mono_ead_generateXSS : mono.
Lemma mono_ead_of : forall nbt int ds locb, le (ead_of Debug nbt int ds locb) (ead_of Release nbt int ds locb).
Proof.
  intros. unfold ead_of. apply le_bindR with (R := Forall2 elem_le); [apply leR_mapM; exact mono_ea_elem_of|]. intros es1 es2 F.
  unfold dd_of. apply le_bind; [apply le_dd_generateXSS; exact F|mono].
Qed.
#[export] Hint Resolve mono_ead_of : mono.
Lemma mono_ead_make : forall locb v, le (EnergyAngle.ead_make Debug locb v) (EnergyAngle.ead_make Release locb v).
Proof. intros. unfold EnergyAngle.ead_make. mono. Qed.
#[export] Hint Resolve mono_ead_make : mono.

(** ** SimpleLaws *)
Lemma mono_two_C1 : forall o, le (SimpleLaws.two_C1 Debug o) (SimpleLaws.two_C1 Release o).
Proof. intros. unfold SimpleLaws.two_C1. mono. Qed.
#[export] Hint Resolve mono_two_C1 : mono.
Lemma mono_two_C2 : forall o, le (SimpleLaws.two_C2 Debug o) (SimpleLaws.two_C2 Release o).
Proof. intros. unfold SimpleLaws.two_C2. mono. Qed.
#[export] Hint Resolve mono_two_C2 : mono.
Lemma mono_dp_LP : forall o, le (SimpleLaws.dp_LP Debug o) (SimpleLaws.dp_LP Release o).
Proof. intros. unfold SimpleLaws.dp_LP. mono. Qed.
#[export] Hint Resolve mono_dp_LP : mono.
Lemma mono_nb_NPSX : forall o, le (SimpleLaws.nb_NPSX Debug o) (SimpleLaws.nb_NPSX Release o).
Proof. intros. unfold SimpleLaws.nb_NPSX. mono. Qed.
#[export] Hint Resolve mono_nb_NPSX : mono.
Lemma mono_nb_AP : forall o, le (SimpleLaws.nb_AP Debug o) (SimpleLaws.nb_AP Release o).
Proof. intros. unfold SimpleLaws.nb_AP. mono. Qed.
#[export] Hint Resolve mono_nb_AP : mono.
Lemma mono_nb_interpolation : forall o, le (SimpleLaws.nb_interpolation Debug o) (SimpleLaws.nb_interpolation Release o).
Proof. intros. unfold SimpleLaws.nb_interpolation. mono. Qed.
#[export] Hint Resolve mono_nb_interpolation : mono.
Lemma mono_nb_numberValues : forall o, le (SimpleLaws.nb_numberValues Debug o) (SimpleLaws.nb_numberValues Release o).
Proof. intros. unfold SimpleLaws.nb_numberValues. mono. Qed.
#[export] Hint Resolve mono_nb_numberValues : mono.
Lemma mono_nb_values : forall o, le (SimpleLaws.nb_values Debug o) (SimpleLaws.nb_values Release o).
Proof. intros. unfold SimpleLaws.nb_values. mono. Qed.
#[export] Hint Resolve mono_nb_values : mono.
Lemma mono_nb_pdf : forall o, le (SimpleLaws.nb_pdf Debug o) (SimpleLaws.nb_pdf Release o).
Proof. intros. unfold SimpleLaws.nb_pdf. mono. Qed.
#[export] Hint Resolve mono_nb_pdf : mono.
Lemma mono_nb_cdf : forall o, le (SimpleLaws.nb_cdf Debug o) (SimpleLaws.nb_cdf Release o).
Proof. intros. unfold SimpleLaws.nb_cdf. mono. Qed.
#[export] Hint Resolve mono_nb_cdf : mono.
Lemma mono_eqb_energies : forall o, le (SimpleLaws.eqb_energies Debug o) (SimpleLaws.eqb_energies Release o).
Proof. intros. unfold SimpleLaws.eqb_energies. mono. Qed.
#[export] Hint Resolve mono_eqb_energies : mono.
Lemma mono_eq_verify : forall energies index, le (SimpleLaws.eq_verify Debug energies index) (SimpleLaws.eq_verify Release energies index).
Proof. intros. unfold SimpleLaws.eq_verify. mono. Qed.
#[export] Hint Resolve mono_eq_verify : mono.
Lemma mono_eq_energy_ : forall energies index, le (SimpleLaws.eq_energy_ Debug energies index) (SimpleLaws.eq_energy_ Release energies index).
Proof. intros. unfold SimpleLaws.eq_energy_. mono. Qed.
#[export] Hint Resolve mono_eq_energy_ : mono.
Lemma mono_eq_NET_ : forall v interp energies, le (SimpleLaws.eq_NET_ Debug v interp energies) (SimpleLaws.eq_NET_ Release v interp energies).
Proof. intros. unfold SimpleLaws.eq_NET_. mono. Qed.
#[export] Hint Resolve mono_eq_NET_ : mono.
Lemma mono_eq_generateBlocks : forall v, le (SimpleLaws.eq_generateBlocks Debug v) (SimpleLaws.eq_generateBlocks Release v).
Proof. intros. unfold SimpleLaws.eq_generateBlocks. mono. Qed.
#[export] Hint Resolve mono_eq_generateBlocks : mono.
Lemma mono_eq_of : forall srt nbt int ds, le (SimpleLaws.eq_of Debug srt nbt int ds) (SimpleLaws.eq_of Release srt nbt int ds).
Proof. intros. unfold SimpleLaws.eq_of. mono. Qed.
#[export] Hint Resolve mono_eq_of : mono.
Lemma mono_eq_make : forall v, le (SimpleLaws.eq_make Debug v) (SimpleLaws.eq_make Release v).
Proof. intros. unfold SimpleLaws.eq_make. mono. Qed.
#[export] Hint Resolve mono_eq_make : mono.
Lemma mono_eq_NB : forall o, le (SimpleLaws.eq_NB Debug o) (SimpleLaws.eq_NB Release o).
Proof. intros. unfold SimpleLaws.eq_NB. mono. Qed.
#[export] Hint Resolve mono_eq_NB : mono.
Lemma mono_eq_NBT : forall o, le (SimpleLaws.eq_NBT Debug o) (SimpleLaws.eq_NBT Release o).
Proof. intros. unfold SimpleLaws.eq_NBT. mono. Qed.
#[export] Hint Resolve mono_eq_NBT : mono.
Lemma mono_eq_INT : forall o, le (SimpleLaws.eq_INT Debug o) (SimpleLaws.eq_INT Release o).
Proof. intros. unfold SimpleLaws.eq_INT. mono. Qed.
#[export] Hint Resolve mono_eq_INT : mono.
Lemma mono_eq_NE : forall o, le (SimpleLaws.eq_NE Debug o) (SimpleLaws.eq_NE Release o).
Proof. intros. unfold SimpleLaws.eq_NE. mono. Qed.
#[export] Hint Resolve mono_eq_NE : mono.
Lemma mono_eq_incidentEnergies : forall o, le (SimpleLaws.eq_incidentEnergies Debug o) (SimpleLaws.eq_incidentEnergies Release o).
Proof. intros. unfold SimpleLaws.eq_incidentEnergies. mono. Qed.
#[export] Hint Resolve mono_eq_incidentEnergies : mono.
Lemma mono_eq_incidentEnergy : forall o i, le (SimpleLaws.eq_incidentEnergy Debug o i) (SimpleLaws.eq_incidentEnergy Release o i).
Proof. intros. unfold SimpleLaws.eq_incidentEnergy. mono. Qed.
#[export] Hint Resolve mono_eq_incidentEnergy : mono.
Lemma mono_eq_NET : forall o, le (SimpleLaws.eq_NET Debug o) (SimpleLaws.eq_NET Release o).
Proof. intros. unfold SimpleLaws.eq_NET. mono. Qed.
#[export] Hint Resolve mono_eq_NET : mono.
Lemma mono_eq_distribution : forall o index, le (SimpleLaws.eq_distribution Debug o index) (SimpleLaws.eq_distribution Release o index).
Proof. intros. unfold SimpleLaws.eq_distribution. mono. Qed.
#[export] Hint Resolve mono_eq_distribution : mono.
Lemma mono_eq_emin : forall o, le (SimpleLaws.eq_emin Debug o) (SimpleLaws.eq_emin Release o).
Proof. intros. unfold SimpleLaws.eq_emin. mono. Qed.
#[export] Hint Resolve mono_eq_emin : mono.
Lemma mono_eq_emax : forall o, le (SimpleLaws.eq_emax Debug o) (SimpleLaws.eq_emax Release o).
Proof. intros. unfold SimpleLaws.eq_emax. mono. Qed.
#[export] Hint Resolve mono_eq_emax : mono.

(** ** Remake *)
Lemma mono_dd_remake {D : Type} : forall gd1 gd2, (forall a b c, le (gd1 a b c) (gd2 a b c)) -> forall el1 el2, (forall a, leR elem_le (el1 a) (el2 a)) ->
  forall o b, le (dd_remake (D:=D) Debug gd1 el1 o b) (dd_remake (D:=D) Release gd2 el2 o b).
Proof.
  intros gd1 gd2 G el1 el2 E o b. unfold dd_remake. mono_step; [mono|]. intros nbt. mono_step; [mono|]. intros int. apply le_bindR with (R := Forall2 elem_le); [apply leR_mapM; exact E|]. intros es1 es2 F.
  apply le_bind; [|mono]. unfold dd_of. apply le_bind; [apply le_dd_generateXSS; exact F|mono].
Qed.
Lemma mono_ae_el : forall o, leR elem_le (ae_el Debug o) (ae_el Release o).
Proof. intros o. apply leR_ok. split; [reflexivity|]. cbn [snd]. mono. Qed.
Lemma mono_ea_el : forall o, leR elem_le (ea_el Debug o) (ea_el Release o).
Proof. intros o. apply leR_ok. split; [reflexivity|]. cbn [snd]. mono. Qed.
Lemma mono_og_remake : forall o b, le (og_remake Debug o b) (og_remake Release o b).
Proof. intros. unfold og_remake. apply mono_dd_remake; [auto with mono|intros a; apply leR_elem_refl]. Qed.
#[export] Hint Resolve mono_og_remake : mono.
Lemma mono_aed_remake : forall o b, le (aed_remake Debug o b) (aed_remake Release o b).
Proof. intros. unfold aed_remake. apply mono_dd_remake; [auto with mono|exact mono_ae_el]. Qed.
#[export] Hint Resolve mono_aed_remake : mono.
Lemma mono_ead_remake : forall o b, le (ead_remake Debug o b) (ead_remake Release o b).
Proof. intros. unfold ead_remake. apply mono_dd_remake; [auto with mono|exact mono_ea_el]. Qed.
#[export] Hint Resolve mono_ead_remake : mono.

(** ** EnergyDist *)
Lemma mono_ed_generate : forall srt i, le (EnergyDist.ed_generate Debug srt i) (EnergyDist.ed_generate Release srt i).
Proof. intros. unfold EnergyDist.ed_generate. mono. Qed.
#[export] Hint Resolve mono_ed_generate : mono.
Lemma mono_ed_of : forall srt i, le (EnergyDist.ed_of Debug srt i) (EnergyDist.ed_of Release srt i).
Proof. intros. unfold EnergyDist.ed_of. mono. Qed.
#[export] Hint Resolve mono_ed_of : mono.
Lemma mono_ed_emin : forall o, le (EnergyDist.ed_emin Debug o) (EnergyDist.ed_emin Release o).
Proof. intros. unfold EnergyDist.ed_emin. mono. Qed.
#[export] Hint Resolve mono_ed_emin : mono.
Lemma mono_ed_emax : forall o, le (EnergyDist.ed_emax Debug o) (EnergyDist.ed_emax Release o).
Proof. intros. unfold EnergyDist.ed_emax. mono. Qed.
#[export] Hint Resolve mono_ed_emax : mono.
Lemma mono_ed_words : forall o idat, le (EnergyDist.ed_words Debug o idat) (EnergyDist.ed_words Release o idat).
Proof. intros. unfold EnergyDist.ed_words. mono. Qed.
#[export] Hint Resolve mono_ed_words : mono.
Lemma mono_ed_read : forall law idat emin emax v, le (EnergyDist.ed_read Debug law idat emin emax v) (EnergyDist.ed_read Release law idat emin emax v).
Proof. intros. unfold EnergyDist.ed_read. mono. Qed.
#[export] Hint Resolve mono_ed_read : mono.

(** ** MultiDist *)
Lemma mono_mu_words : forall o idat, le (MultiDist.mu_words Debug o idat) (MultiDist.mu_words Release o idat).
Proof. intros. unfold MultiDist.mu_words. mono. Qed.
#[export] Hint Resolve mono_mu_words : mono.
Lemma mono_mu_append : forall locb ps ds size, le (MultiDist.mu_append Debug locb ps ds size) (MultiDist.mu_append Release locb ps ds size).
Proof. intros until ps. induction ps as [|? ? IH]; intros; cbn [MultiDist.mu_append]; mono. Qed.
#[export] Hint Resolve mono_mu_append : mono.
Lemma mono_mu_generateXSS : forall locb ps ds, le (MultiDist.mu_generateXSS Debug locb ps ds) (MultiDist.mu_generateXSS Release locb ps ds).
Proof. intros. unfold MultiDist.mu_generateXSS. mono. Qed.
#[export] Hint Resolve mono_mu_generateXSS : mono.
Lemma mono_mu_read : forall law idat emin emax v, le (MultiDist.mu_read Debug law idat emin emax v) (MultiDist.mu_read Release law idat emin emax v).
Proof. intros. unfold MultiDist.mu_read. mono. Qed.
#[export] Hint Resolve mono_mu_read : mono.
Lemma mono_mu_loop : forall locb v fuel locator, le (MultiDist.mu_loop Debug locb v fuel locator) (MultiDist.mu_loop Release locb v fuel locator).
Proof. intros until fuel. induction fuel as [|? IH]; intros; cbn [MultiDist.mu_loop]; mono. Qed.
#[export] Hint Resolve mono_mu_loop : mono.
Lemma mono_mu_make : forall locb v, le (MultiDist.mu_make Debug locb v) (MultiDist.mu_make Release locb v).
Proof. intros. unfold MultiDist.mu_make. mono. Qed.
#[export] Hint Resolve mono_mu_make : mono.
Lemma mono_mu_of : forall ps ds locb, le (MultiDist.mu_of Debug ps ds locb) (MultiDist.mu_of Release ps ds locb).
Proof. intros. unfold MultiDist.mu_of. mono. Qed.
#[export] Hint Resolve mono_mu_of : mono.
Lemma mono_mu_probability : forall m index, le (MultiDist.mu_probability Debug m index) (MultiDist.mu_probability Release m index).
Proof. intros. unfold MultiDist.mu_probability. mono. Qed.
#[export] Hint Resolve mono_mu_probability : mono.
Lemma mono_mu_distribution : forall m index, le (MultiDist.mu_distribution Debug m index) (MultiDist.mu_distribution Release m index).
Proof. intros. unfold MultiDist.mu_distribution. mono. Qed.
#[export] Hint Resolve mono_mu_distribution : mono.
Lemma mono_en_words : forall o locator, le (MultiDist.en_words Debug o locator) (MultiDist.en_words Release o locator).
Proof. intros. unfold MultiDist.en_words. mono. Qed.
#[export] Hint Resolve mono_en_words : mono.
Lemma mono_en_read : forall locator v, le (MultiDist.en_read Debug locator v) (MultiDist.en_read Release locator v).
Proof. intros. unfold MultiDist.en_read. mono. Qed.
#[export] Hint Resolve mono_en_read : mono.
Lemma mono_pr_of : forall p, le (MultiDist.pr_of Debug p) (MultiDist.pr_of Release p).
Proof. intros. unfold MultiDist.pr_of. mono. Qed.
#[export] Hint Resolve mono_pr_of : mono.
Lemma mono_en_of : forall srt e, le (MultiDist.en_of Debug srt e) (MultiDist.en_of Release srt e).
Proof. intros. unfold MultiDist.en_of. mono. Qed.
#[export] Hint Resolve mono_en_of : mono.

(** ** FrameBlock *)
Lemma mono_ty_generateBlocks : forall v ntr, le (FrameBlock.ty_generateBlocks Debug v ntr) (FrameBlock.ty_generateBlocks Release v ntr).
Proof. intros. unfold FrameBlock.ty_generateBlocks. mono. Qed.
#[export] Hint Resolve mono_ty_generateBlocks : mono.
Lemma mono_ty_of : forall frames ms, le (FrameBlock.ty_of Debug frames ms) (FrameBlock.ty_of Release frames ms).
Proof. intros. unfold FrameBlock.ty_of. mono. Qed.
#[export] Hint Resolve mono_ty_of : mono.
Lemma mono_ty_of_frames : forall frames, le (FrameBlock.ty_of_frames Debug frames) (FrameBlock.ty_of_frames Release frames).
Proof. intros. unfold FrameBlock.ty_of_frames. mono. Qed.
#[export] Hint Resolve mono_ty_of_frames : mono.
Lemma mono_ty_make : forall v ntr, le (FrameBlock.ty_make Debug v ntr) (FrameBlock.ty_make Release v ntr).
Proof. intros. unfold FrameBlock.ty_make. mono. Qed.
#[export] Hint Resolve mono_ty_make : mono.
Lemma mono_ty_frame : forall o index, le (FrameBlock.ty_frame Debug o index) (FrameBlock.ty_frame Release o index).
Proof. intros. unfold FrameBlock.ty_frame. mono. Qed.
#[export] Hint Resolve mono_ty_frame : mono.
Lemma mono_ty_mult : forall o index, le (FrameBlock.ty_mult Debug o index) (FrameBlock.ty_mult Release o index).
Proof. intros. unfold FrameBlock.ty_mult. mono. Qed.
#[export] Hint Resolve mono_ty_mult : mono.

(** ** EnergyBlocks *)
Lemma mono_dh_generateData : forall locator v, le (EnergyBlocks.dh_generateData Debug locator v) (EnergyBlocks.dh_generateData Release locator v).
Proof. intros. unfold EnergyBlocks.dh_generateData. mono. Qed.
#[export] Hint Resolve mono_dh_generateData : mono.
Lemma mono_dh_append : forall size index ds xss, le (EnergyBlocks.dh_append Debug size index ds xss) (EnergyBlocks.dh_append Release size index ds xss).
Proof. intros until ds. revert size index. induction ds as [|? ? IH]; intros; cbn [EnergyBlocks.dh_append]; mono. Qed.
#[export] Hint Resolve mono_dh_append : mono.
Lemma mono_dh_generateXSS : forall ds, le (EnergyBlocks.dh_generateXSS Debug ds) (EnergyBlocks.dh_generateXSS Release ds).
Proof. intros. unfold EnergyBlocks.dh_generateXSS. mono. Qed.
#[export] Hint Resolve mono_dh_generateXSS : mono.
Lemma mono_dh_of : forall ds frames, le (EnergyBlocks.dh_of Debug ds frames) (EnergyBlocks.dh_of Release ds frames).
Proof. intros. unfold EnergyBlocks.dh_of. mono. Qed.
#[export] Hint Resolve mono_dh_of : mono.
Lemma mono_dh_make : forall v data n t, le (EnergyBlocks.dh_make Debug v data n t) (EnergyBlocks.dh_make Release v data n t).
Proof. intros. unfold EnergyBlocks.dh_make. mono. Qed.
#[export] Hint Resolve mono_dh_make : mono.
Lemma mono_dh_LDLW : forall o index, le (EnergyBlocks.dh_LDLW Debug o index) (EnergyBlocks.dh_LDLW Release o index).
Proof. intros. unfold EnergyBlocks.dh_LDLW. mono. Qed.
#[export] Hint Resolve mono_dh_LDLW : mono.
Lemma mono_dh_distribution : forall o index, le (EnergyBlocks.dh_distribution Debug o index) (EnergyBlocks.dh_distribution Release o index).
Proof. intros. unfold EnergyBlocks.dh_distribution. mono. Qed.
#[export] Hint Resolve mono_dh_distribution : mono.
Lemma mono_dh_frame : forall o index, le (EnergyBlocks.dh_frame Debug o index) (EnergyBlocks.dh_frame Release o index).
Proof. intros. unfold EnergyBlocks.dh_frame. mono. Qed.
#[export] Hint Resolve mono_dh_frame : mono.

(** ** DlwBlock *)
Lemma mono_dl_append : forall size index ds ms xss tyr, le (DlwBlock.dl_append Debug size index ds ms xss tyr) (DlwBlock.dl_append Release size index ds ms xss tyr).
Proof. intros until ds. revert size index. induction ds as [|? ? IH]; intros; cbn [DlwBlock.dl_append]; mono. Qed.
#[export] Hint Resolve mono_dl_append : mono.
Lemma mono_dl_generateXSS : forall ds ms, le (DlwBlock.dl_generateXSS Debug ds ms) (DlwBlock.dl_generateXSS Release ds ms).
Proof. intros. unfold DlwBlock.dl_generateXSS. mono. Qed.
#[export] Hint Resolve mono_dl_generateXSS : mono.
Lemma mono_dl_LDLW_ : forall v nr index, le (DlwBlock.dl_LDLW_ Debug v nr index) (DlwBlock.dl_LDLW_ Release v nr index).
Proof. intros. unfold DlwBlock.dl_LDLW_. mono. Qed.
#[export] Hint Resolve mono_dl_LDLW_ : mono.
Lemma mono_dl_one : forall v nr t index, le (DlwBlock.dl_one Debug v nr t index) (DlwBlock.dl_one Release v nr t index).
Proof. intros. unfold DlwBlock.dl_one. mono. Qed.
#[export] Hint Resolve mono_dl_one : mono.
Lemma mono_dl_generateBlocks : forall v nr t, le (DlwBlock.dl_generateBlocks Debug v nr t) (DlwBlock.dl_generateBlocks Release v nr t).
Proof. intros. unfold DlwBlock.dl_generateBlocks. mono. Qed.
#[export] Hint Resolve mono_dl_generateBlocks : mono.
Lemma mono_dl_of : forall ds ms frames, le (DlwBlock.dl_of Debug ds ms frames) (DlwBlock.dl_of Release ds ms frames).
Proof. intros. unfold DlwBlock.dl_of. mono. Qed.
#[export] Hint Resolve mono_dl_of : mono.
Lemma mono_dl_make : forall v data t nr, le (DlwBlock.dl_make Debug v data t nr) (DlwBlock.dl_make Release v data t nr).
Proof. intros. unfold DlwBlock.dl_make. mono. Qed.
#[export] Hint Resolve mono_dl_make : mono.
Lemma mono_dl_LDLW : forall o index, le (DlwBlock.dl_LDLW Debug o index) (DlwBlock.dl_LDLW Release o index).
Proof. intros. unfold DlwBlock.dl_LDLW. mono. Qed.
#[export] Hint Resolve mono_dl_LDLW : mono.
Lemma mono_dl_distribution : forall o index, le (DlwBlock.dl_distribution Debug o index) (DlwBlock.dl_distribution Release o index).
Proof. intros. unfold DlwBlock.dl_distribution. mono. Qed.
#[export] Hint Resolve mono_dl_distribution : mono.
Lemma mono_dl_multiplicity : forall o index, le (DlwBlock.dl_multiplicity Debug o index) (DlwBlock.dl_multiplicity Release o index).
Proof. intros. unfold DlwBlock.dl_multiplicity. mono. Qed.
#[export] Hint Resolve mono_dl_multiplicity : mono.
Lemma mono_dl_frame : forall o index, le (DlwBlock.dl_frame Debug o index) (DlwBlock.dl_frame Release o index).
Proof. intros. unfold DlwBlock.dl_frame. mono. Qed.
#[export] Hint Resolve mono_dl_frame : mono.
Lemma mono_mult_of : forall m, le (DlwBlock.mult_of Debug m) (DlwBlock.mult_of Release m).
Proof. intros. unfold DlwBlock.mult_of. mono. Qed.
#[export] Hint Resolve mono_mult_of : mono.

(** ** PropsEnergy *)
Lemma mono_block_of : forall es, le (PropsEnergy.block_of Debug es) (PropsEnergy.block_of Release es).
Proof. intros. unfold PropsEnergy.block_of. mono. Qed.
#[export] Hint Resolve mono_block_of : mono.
Lemma mono_dlw_of : forall es ms fs, le (PropsEnergy.dlw_of Debug es ms fs) (PropsEnergy.dlw_of Release es ms fs).
Proof. intros. unfold PropsEnergy.dlw_of. mono. Qed.
#[export] Hint Resolve mono_dlw_of : mono.

(** ** ReactionNumbers *)
Lemma mono_mt_MT : forall o index, le (ReactionNumbers.mt_MT Debug o index) (ReactionNumbers.mt_MT Release o index).
Proof. intros. unfold ReactionNumbers.mt_MT. mono. Qed.
#[export] Hint Resolve mono_mt_MT : mono.
Lemma mono_mt_MTs : forall o, le (ReactionNumbers.mt_MTs Debug o) (ReactionNumbers.mt_MTs Release o).
Proof. intros. unfold ReactionNumbers.mt_MTs. mono. Qed.
#[export] Hint Resolve mono_mt_MTs : mono.
Lemma mono_yp_NYP : forall v, le (ReactionNumbers.yp_NYP Debug v) (ReactionNumbers.yp_NYP Release v).
Proof. intros. unfold ReactionNumbers.yp_NYP. mono. Qed.
#[export] Hint Resolve mono_yp_NYP : mono.
Lemma mono_yp_make : forall v, le (ReactionNumbers.yp_make Debug v) (ReactionNumbers.yp_make Release v).
Proof. intros. unfold ReactionNumbers.yp_make. mono. Qed.
#[export] Hint Resolve mono_yp_make : mono.
Lemma mono_yp_MT : forall v index, le (ReactionNumbers.yp_MT Debug v index) (ReactionNumbers.yp_MT Release v index).
Proof. intros. unfold ReactionNumbers.yp_MT. mono. Qed.
#[export] Hint Resolve mono_yp_MT : mono.
Lemma mono_yp_MTs : forall v, le (ReactionNumbers.yp_MTs Debug v) (ReactionNumbers.yp_MTs Release v).
Proof. intros. unfold ReactionNumbers.yp_MTs. mono. Qed.
#[export] Hint Resolve mono_yp_MTs : mono.
Lemma mono_lq_QValue : forall o index, le (ReactionNumbers.lq_QValue Debug o index) (ReactionNumbers.lq_QValue Release o index).
Proof. intros. unfold ReactionNumbers.lq_QValue. mono. Qed.
#[export] Hint Resolve mono_lq_QValue : mono.
Lemma mono_lq_QValues : forall o, le (ReactionNumbers.lq_QValues Debug o) (ReactionNumbers.lq_QValues Release o).
Proof. intros. unfold ReactionNumbers.lq_QValues. mono. Qed.
#[export] Hint Resolve mono_lq_QValues : mono.
Lemma mono_esz_energies : forall o, le (ReactionNumbers.esz_energies Debug o) (ReactionNumbers.esz_energies Release o).
Proof. intros. unfold ReactionNumbers.esz_energies. mono. Qed.
#[export] Hint Resolve mono_esz_energies : mono.
Lemma mono_esz_total : forall o, le (ReactionNumbers.esz_total Debug o) (ReactionNumbers.esz_total Release o).
Proof. intros. unfold ReactionNumbers.esz_total. mono. Qed.
#[export] Hint Resolve mono_esz_total : mono.
Lemma mono_esz_disappearance : forall o, le (ReactionNumbers.esz_disappearance Debug o) (ReactionNumbers.esz_disappearance Release o).
Proof. intros. unfold ReactionNumbers.esz_disappearance. mono. Qed.
#[export] Hint Resolve mono_esz_disappearance : mono.
Lemma mono_esz_elastic : forall o, le (ReactionNumbers.esz_elastic Debug o) (ReactionNumbers.esz_elastic Release o).
Proof. intros. unfold ReactionNumbers.esz_elastic. mono. Qed.
#[export] Hint Resolve mono_esz_elastic : mono.
Lemma mono_esz_heating : forall o, le (ReactionNumbers.esz_heating Debug o) (ReactionNumbers.esz_heating Release o).
Proof. intros. unfold ReactionNumbers.esz_heating. mono. Qed.
#[export] Hint Resolve mono_esz_heating : mono.
Lemma mono_hpd_energyIndex : forall v, le (ReactionNumbers.hpd_energyIndex Debug v) (ReactionNumbers.hpd_energyIndex Release v).
Proof. intros. unfold ReactionNumbers.hpd_energyIndex. mono. Qed.
#[export] Hint Resolve mono_hpd_energyIndex : mono.
Lemma mono_hpd_numberValues : forall v, le (ReactionNumbers.hpd_numberValues Debug v) (ReactionNumbers.hpd_numberValues Release v).
Proof. intros. unfold ReactionNumbers.hpd_numberValues. mono. Qed.
#[export] Hint Resolve mono_hpd_numberValues : mono.
Lemma mono_hpd_totalProduction : forall v, le (ReactionNumbers.hpd_totalProduction Debug v) (ReactionNumbers.hpd_totalProduction Release v).
Proof. intros. unfold ReactionNumbers.hpd_totalProduction. mono. Qed.
#[export] Hint Resolve mono_hpd_totalProduction : mono.
Lemma mono_hpd_heating : forall v, le (ReactionNumbers.hpd_heating Debug v) (ReactionNumbers.hpd_heating Release v).
Proof. intros. unfold ReactionNumbers.hpd_heating. mono. Qed.
#[export] Hint Resolve mono_hpd_heating : mono.
Lemma mono_hpd_make : forall v, le (ReactionNumbers.hpd_make Debug v) (ReactionNumbers.hpd_make Release v).
Proof. intros. unfold ReactionNumbers.hpd_make. mono. Qed.
#[export] Hint Resolve mono_hpd_make : mono.
Lemma mono_nt_NP : forall o index, le (ReactionNumbers.nt_NP Debug o index) (ReactionNumbers.nt_NP Release o index).
Proof. intros. unfold ReactionNumbers.nt_NP. mono. Qed.
#[export] Hint Resolve mono_nt_NP : mono.
Lemma mono_nt_NPs : forall o, le (ReactionNumbers.nt_NPs Debug o) (ReactionNumbers.nt_NPs Release o).
Proof. intros. unfold ReactionNumbers.nt_NPs. mono. Qed.
#[export] Hint Resolve mono_nt_NPs : mono.
Lemma mono_ix_LLOC : forall o particle index, le (ReactionNumbers.ix_LLOC Debug o particle index) (ReactionNumbers.ix_LLOC Release o particle index).
Proof. intros. unfold ReactionNumbers.ix_LLOC. mono. Qed.
#[export] Hint Resolve mono_ix_LLOC : mono.

(** ** NuBlock *)
Lemma mono_pf_LNU : forall v, le (NuBlock.pf_LNU Debug v) (NuBlock.pf_LNU Release v).
Proof. intros. unfold NuBlock.pf_LNU. mono. Qed.
#[export] Hint Resolve mono_pf_LNU : mono.
Lemma mono_pf_NC : forall v, le (NuBlock.pf_NC Debug v) (NuBlock.pf_NC Release v).
Proof. intros. unfold NuBlock.pf_NC. mono. Qed.
#[export] Hint Resolve mono_pf_NC : mono.
Lemma mono_pf_C : forall v, le (NuBlock.pf_C Debug v) (NuBlock.pf_C Release v).
Proof. intros. unfold NuBlock.pf_C. mono. Qed.
#[export] Hint Resolve mono_pf_C : mono.
Lemma mono_pf_make : forall v, le (NuBlock.pf_make Debug v) (NuBlock.pf_make Release v).
Proof. intros. unfold NuBlock.pf_make. mono. Qed.
#[export] Hint Resolve mono_pf_make : mono.
Lemma mono_nu_generateData : forall v, le (NuBlock.nu_generateData Debug v) (NuBlock.nu_generateData Release v).
Proof. intros. unfold NuBlock.nu_generateData. mono. Qed.
#[export] Hint Resolve mono_nu_generateData : mono.
Lemma mono_nu_generateBlocks : forall v, le (NuBlock.nu_generateBlocks Debug v) (NuBlock.nu_generateBlocks Release v).
Proof. intros. unfold NuBlock.nu_generateBlocks. mono. Qed.
#[export] Hint Resolve mono_nu_generateBlocks : mono.
Lemma mono_nu_of : forall prompt total, le (NuBlock.nu_of Debug prompt total) (NuBlock.nu_of Release prompt total).
Proof. intros. unfold NuBlock.nu_of. mono. Qed.
#[export] Hint Resolve mono_nu_of : mono.
Lemma mono_nu_make : forall v, le (NuBlock.nu_make Debug v) (NuBlock.nu_make Release v).
Proof. intros. unfold NuBlock.nu_make. mono. Qed.
#[export] Hint Resolve mono_nu_make : mono.
Lemma mono_tb_cumulativeProbabilities : forall o, le (NuBlock.tb_cumulativeProbabilities Debug o) (NuBlock.tb_cumulativeProbabilities Release o).
Proof. intros. unfold NuBlock.tb_cumulativeProbabilities. mono. Qed.
#[export] Hint Resolve mono_tb_cumulativeProbabilities : mono.
Lemma mono_tb_total : forall o, le (NuBlock.tb_total Debug o) (NuBlock.tb_total Release o).
Proof. intros. unfold NuBlock.tb_total. mono. Qed.
#[export] Hint Resolve mono_tb_total : mono.
Lemma mono_tb_elastic : forall o, le (NuBlock.tb_elastic Debug o) (NuBlock.tb_elastic Release o).
Proof. intros. unfold NuBlock.tb_elastic. mono. Qed.
#[export] Hint Resolve mono_tb_elastic : mono.
Lemma mono_tb_fission : forall o, le (NuBlock.tb_fission Debug o) (NuBlock.tb_fission Release o).
Proof. intros. unfold NuBlock.tb_fission. mono. Qed.
#[export] Hint Resolve mono_tb_fission : mono.
Lemma mono_tb_capture : forall o, le (NuBlock.tb_capture Debug o) (NuBlock.tb_capture Release o).
Proof. intros. unfold NuBlock.tb_capture. mono. Qed.
#[export] Hint Resolve mono_tb_capture : mono.
Lemma mono_tb_heating : forall o, le (NuBlock.tb_heating Debug o) (NuBlock.tb_heating Release o).
Proof. intros. unfold NuBlock.tb_heating. mono. Qed.
#[export] Hint Resolve mono_tb_heating : mono.
Lemma mono_un_word : forall v k, le (NuBlock.un_word Debug v k) (NuBlock.un_word Release v k).
Proof. intros. unfold NuBlock.un_word. mono. Qed.
#[export] Hint Resolve mono_un_word : mono.
Lemma mono_un_N : forall v, le (NuBlock.un_N Debug v) (NuBlock.un_N Release v).
Proof. intros. unfold NuBlock.un_N. mono. Qed.
#[export] Hint Resolve mono_un_N : mono.
Lemma mono_un_M : forall v, le (NuBlock.un_M Debug v) (NuBlock.un_M Release v).
Proof. intros. unfold NuBlock.un_M. mono. Qed.
#[export] Hint Resolve mono_un_M : mono.
Lemma mono_un_INT : forall v, le (NuBlock.un_INT Debug v) (NuBlock.un_INT Release v).
Proof. intros. unfold NuBlock.un_INT. mono. Qed.
#[export] Hint Resolve mono_un_INT : mono.
Lemma mono_un_ILF : forall v, le (NuBlock.un_ILF Debug v) (NuBlock.un_ILF Release v).
Proof. intros. unfold NuBlock.un_ILF. mono. Qed.
#[export] Hint Resolve mono_un_ILF : mono.
Lemma mono_un_IOA : forall v, le (NuBlock.un_IOA Debug v) (NuBlock.un_IOA Release v).
Proof. intros. unfold NuBlock.un_IOA. mono. Qed.
#[export] Hint Resolve mono_un_IOA : mono.
Lemma mono_un_IFF : forall v, le (NuBlock.un_IFF Debug v) (NuBlock.un_IFF Release v).
Proof. intros. unfold NuBlock.un_IFF. mono. Qed.
#[export] Hint Resolve mono_un_IFF : mono.
Lemma mono_un_energies : forall v, le (NuBlock.un_energies Debug v) (NuBlock.un_energies Release v).
Proof. intros. unfold NuBlock.un_energies. mono. Qed.
#[export] Hint Resolve mono_un_energies : mono.
Lemma mono_un_loop : forall v m left index n, le (NuBlock.un_loop Debug v m left index n) (NuBlock.un_loop Release v m left index n).
Proof. intros until n. revert m left index. induction n as [|? IH]; intros; cbn [NuBlock.un_loop]; mono. Qed.
#[export] Hint Resolve mono_un_loop : mono.
Lemma mono_un_generateBlocks : forall v, le (NuBlock.un_generateBlocks Debug v) (NuBlock.un_generateBlocks Release v).
Proof. intros. unfold NuBlock.un_generateBlocks. mono. Qed.
#[export] Hint Resolve mono_un_generateBlocks : mono.
Lemma mono_un_of : forall interpolation inelastic absorption type tables, le (NuBlock.un_of Debug interpolation inelastic absorption type tables) (NuBlock.un_of Release interpolation inelastic absorption type tables).
Proof. intros. unfold NuBlock.un_of. mono. Qed.
#[export] Hint Resolve mono_un_of : mono.
Lemma mono_un_make : forall v, le (NuBlock.un_make Debug v) (NuBlock.un_make Release v).
Proof. intros. unfold NuBlock.un_make. mono. Qed.
#[export] Hint Resolve mono_un_make : mono.
Lemma mono_un_probabilityTable : forall o index, le (NuBlock.un_probabilityTable Debug o index) (NuBlock.un_probabilityTable Release o index).
Proof. intros. unfold NuBlock.un_probabilityTable. mono. Qed.
#[export] Hint Resolve mono_un_probabilityTable : mono.
Lemma mono_bd_loop : forall v left locator index n, le (NuBlock.bd_loop Debug v left locator index n) (NuBlock.bd_loop Release v left locator index n).
Proof. intros until n. revert left locator index. induction n as [|? IH]; intros; cbn [NuBlock.bd_loop]; mono. Qed.
#[export] Hint Resolve mono_bd_loop : mono.
Lemma mono_bd_generateBlocks : forall v npcr, le (NuBlock.bd_generateBlocks Debug v npcr) (NuBlock.bd_generateBlocks Release v npcr).
Proof. intros. unfold NuBlock.bd_generateBlocks. mono. Qed.
#[export] Hint Resolve mono_bd_generateBlocks : mono.
Lemma mono_bd_of : forall groups, le (NuBlock.bd_of Debug groups) (NuBlock.bd_of Release groups).
Proof. intros. unfold NuBlock.bd_of. mono. Qed.
#[export] Hint Resolve mono_bd_of : mono.
Lemma mono_bd_make : forall v npcr, le (NuBlock.bd_make Debug v npcr) (NuBlock.bd_make Release v npcr).
Proof. intros. unfold NuBlock.bd_make. mono. Qed.
#[export] Hint Resolve mono_bd_make : mono.
Lemma mono_bd_precursorGroupData : forall o index, le (NuBlock.bd_precursorGroupData Debug o index) (NuBlock.bd_precursorGroupData Release o index).
Proof. intros. unfold NuBlock.bd_precursorGroupData. mono. Qed.
#[export] Hint Resolve mono_bd_precursorGroupData : mono.

(** ** ElectronBlocks *)
Lemma mono_ed_x : forall o, le (ElectronBlocks.ed_x Debug o) (ElectronBlocks.ed_x Release o).
Proof. intros. unfold ElectronBlocks.ed_x. mono. Qed.
#[export] Hint Resolve mono_ed_x : mono.
Lemma mono_ed_cdf : forall o, le (ElectronBlocks.ed_cdf Debug o) (ElectronBlocks.ed_cdf Release o).
Proof. intros. unfold ElectronBlocks.ed_cdf. mono. Qed.
#[export] Hint Resolve mono_ed_cdf : mono.
Lemma mono_eb_LLOC_ : forall n info index, le (ElectronBlocks.eb_LLOC_ Debug n info index) (ElectronBlocks.eb_LLOC_ Release n info index).
Proof. intros. unfold ElectronBlocks.eb_LLOC_. mono. Qed.
#[export] Hint Resolve mono_eb_LLOC_ : mono.
Lemma mono_eb_energy_ : forall n info index, le (ElectronBlocks.eb_energy_ Debug n info index) (ElectronBlocks.eb_energy_ Release n info index).
Proof. intros. unfold ElectronBlocks.eb_energy_. mono. Qed.
#[export] Hint Resolve mono_eb_energy_ : mono.
Lemma mono_eb_length_ : forall n info index, le (ElectronBlocks.eb_length_ Debug n info index) (ElectronBlocks.eb_length_ Release n info index).
Proof. intros. unfold ElectronBlocks.eb_length_. mono. Qed.
#[export] Hint Resolve mono_eb_length_ : mono.
Lemma mono_eb_generateBlocks : forall v n, le (ElectronBlocks.eb_generateBlocks Debug v n) (ElectronBlocks.eb_generateBlocks Release v n).
Proof. intros. unfold ElectronBlocks.eb_generateBlocks. mono. Qed.
#[export] Hint Resolve mono_eb_generateBlocks : mono.
Lemma mono_eb_of : forall blocks, le (ElectronBlocks.eb_of Debug blocks) (ElectronBlocks.eb_of Release blocks).
Proof. intros. unfold ElectronBlocks.eb_of. mono. Qed.
#[export] Hint Resolve mono_eb_of : mono.
Lemma mono_eb_make : forall v n, le (ElectronBlocks.eb_make Debug v n) (ElectronBlocks.eb_make Release v n).
Proof. intros. unfold ElectronBlocks.eb_make. mono. Qed.
#[export] Hint Resolve mono_eb_make : mono.
Lemma mono_eb_LLOC : forall o index, le (ElectronBlocks.eb_LLOC Debug o index) (ElectronBlocks.eb_LLOC Release o index).
Proof. intros. unfold ElectronBlocks.eb_LLOC. mono. Qed.
#[export] Hint Resolve mono_eb_LLOC : mono.
Lemma mono_eb_energies : forall o, le (ElectronBlocks.eb_energies Debug o) (ElectronBlocks.eb_energies Release o).
Proof. intros. unfold ElectronBlocks.eb_energies. mono. Qed.
#[export] Hint Resolve mono_eb_energies : mono.
Lemma mono_eb_lengths : forall o, le (ElectronBlocks.eb_lengths Debug o) (ElectronBlocks.eb_lengths Release o).
Proof. intros. unfold ElectronBlocks.eb_lengths. mono. Qed.
#[export] Hint Resolve mono_eb_lengths : mono.
Lemma mono_eb_energy : forall o index, le (ElectronBlocks.eb_energy Debug o index) (ElectronBlocks.eb_energy Release o index).
Proof. intros. unfold ElectronBlocks.eb_energy. mono. Qed.
#[export] Hint Resolve mono_eb_energy : mono.
Lemma mono_eb_length : forall o index, le (ElectronBlocks.eb_length Debug o index) (ElectronBlocks.eb_length Release o index).
Proof. intros. unfold ElectronBlocks.eb_length. mono. Qed.
#[export] Hint Resolve mono_eb_length : mono.
Lemma mono_eb_datum : forall o index, le (ElectronBlocks.eb_datum Debug o index) (ElectronBlocks.eb_datum Release o index).
Proof. intros. unfold ElectronBlocks.eb_datum. mono. Qed.
#[export] Hint Resolve mono_eb_datum : mono.

(** ** AtomicBlocks *)
Lemma mono_two_first : forall o, le (AtomicBlocks.two_first Debug o) (AtomicBlocks.two_first Release o).
Proof. intros. unfold AtomicBlocks.two_first. mono. Qed.
#[export] Hint Resolve mono_two_first : mono.
Lemma mono_two_second : forall o, le (AtomicBlocks.two_second Debug o) (AtomicBlocks.two_second Release o).
Proof. intros. unfold AtomicBlocks.two_second. mono. Qed.
#[export] Hint Resolve mono_two_second : mono.
Lemma mono_ep_LNEPS : forall o, le (AtomicBlocks.ep_LNEPS Debug o) (AtomicBlocks.ep_LNEPS Release o).
Proof. intros. unfold AtomicBlocks.ep_LNEPS. mono. Qed.
#[export] Hint Resolve mono_ep_LNEPS : mono.
Lemma mono_ep_LBEPS : forall o, le (AtomicBlocks.ep_LBEPS Debug o) (AtomicBlocks.ep_LBEPS Release o).
Proof. intros. unfold AtomicBlocks.ep_LBEPS. mono. Qed.
#[export] Hint Resolve mono_ep_LBEPS : mono.
Lemma mono_ep_LPIPS : forall o, le (AtomicBlocks.ep_LPIPS Debug o) (AtomicBlocks.ep_LPIPS Release o).
Proof. intros. unfold AtomicBlocks.ep_LPIPS. mono. Qed.
#[export] Hint Resolve mono_ep_LPIPS : mono.
Lemma mono_ep_numberElectronsPerShell : forall o index, le (AtomicBlocks.ep_numberElectronsPerShell Debug o index) (AtomicBlocks.ep_numberElectronsPerShell Release o index).
Proof. intros. unfold AtomicBlocks.ep_numberElectronsPerShell. mono. Qed.
#[export] Hint Resolve mono_ep_numberElectronsPerShell : mono.
Lemma mono_ep_bindingEnergy : forall o index, le (AtomicBlocks.ep_bindingEnergy Debug o index) (AtomicBlocks.ep_bindingEnergy Release o index).
Proof. intros. unfold AtomicBlocks.ep_bindingEnergy. mono. Qed.
#[export] Hint Resolve mono_ep_bindingEnergy : mono.
Lemma mono_ep_interactionProbability : forall o index, le (AtomicBlocks.ep_interactionProbability Debug o index) (AtomicBlocks.ep_interactionProbability Release o index).
Proof. intros. unfold AtomicBlocks.ep_interactionProbability. mono. Qed.
#[export] Hint Resolve mono_ep_interactionProbability : mono.
Lemma mono_ss_ID : forall o, le (AtomicBlocks.ss_ID Debug o) (AtomicBlocks.ss_ID Release o).
Proof. intros. unfold AtomicBlocks.ss_ID. mono. Qed.
#[export] Hint Resolve mono_ss_ID : mono.
Lemma mono_ss_EP : forall o, le (AtomicBlocks.ss_EP Debug o) (AtomicBlocks.ss_EP Release o).
Proof. intros. unfold AtomicBlocks.ss_EP. mono. Qed.
#[export] Hint Resolve mono_ss_EP : mono.
Lemma mono_ss_BE : forall o, le (AtomicBlocks.ss_BE Debug o) (AtomicBlocks.ss_BE Release o).
Proof. intros. unfold AtomicBlocks.ss_BE. mono. Qed.
#[export] Hint Resolve mono_ss_BE : mono.
Lemma mono_ss_CV : forall o, le (AtomicBlocks.ss_CV Debug o) (AtomicBlocks.ss_CV Release o).
Proof. intros. unfold AtomicBlocks.ss_CV. mono. Qed.
#[export] Hint Resolve mono_ss_CV : mono.
Lemma mono_ss_NT : forall o, le (AtomicBlocks.ss_NT Debug o) (AtomicBlocks.ss_NT Release o).
Proof. intros. unfold AtomicBlocks.ss_NT. mono. Qed.
#[export] Hint Resolve mono_ss_NT : mono.
Lemma mono_ss_designator : forall o index, le (AtomicBlocks.ss_designator Debug o index) (AtomicBlocks.ss_designator Release o index).
Proof. intros. unfold AtomicBlocks.ss_designator. mono. Qed.
#[export] Hint Resolve mono_ss_designator : mono.
Lemma mono_ss_population : forall o index, le (AtomicBlocks.ss_population Debug o index) (AtomicBlocks.ss_population Release o index).
Proof. intros. unfold AtomicBlocks.ss_population. mono. Qed.
#[export] Hint Resolve mono_ss_population : mono.
Lemma mono_ss_bindingEnergy : forall o index, le (AtomicBlocks.ss_bindingEnergy Debug o index) (AtomicBlocks.ss_bindingEnergy Release o index).
Proof. intros. unfold AtomicBlocks.ss_bindingEnergy. mono. Qed.
#[export] Hint Resolve mono_ss_bindingEnergy : mono.
Lemma mono_ss_vacancyProbability : forall o index, le (AtomicBlocks.ss_vacancyProbability Debug o index) (AtomicBlocks.ss_vacancyProbability Release o index).
Proof. intros. unfold AtomicBlocks.ss_vacancyProbability. mono. Qed.
#[export] Hint Resolve mono_ss_vacancyProbability : mono.
Lemma mono_ss_numberTransitions : forall o index, le (AtomicBlocks.ss_numberTransitions Debug o index) (AtomicBlocks.ss_numberTransitions Release o index).
Proof. intros. unfold AtomicBlocks.ss_numberTransitions. mono. Qed.
#[export] Hint Resolve mono_ss_numberTransitions : mono.
Lemma mono_ez_energies : forall o, le (AtomicBlocks.ez_energies Debug o) (AtomicBlocks.ez_energies Release o).
Proof. intros. unfold AtomicBlocks.ez_energies. mono. Qed.
#[export] Hint Resolve mono_ez_energies : mono.
Lemma mono_ez_total : forall o, le (AtomicBlocks.ez_total Debug o) (AtomicBlocks.ez_total Release o).
Proof. intros. unfold AtomicBlocks.ez_total. mono. Qed.
#[export] Hint Resolve mono_ez_total : mono.
Lemma mono_ez_elastic : forall o, le (AtomicBlocks.ez_elastic Debug o) (AtomicBlocks.ez_elastic Release o).
Proof. intros. unfold AtomicBlocks.ez_elastic. mono. Qed.
#[export] Hint Resolve mono_ez_elastic : mono.
Lemma mono_ez_bremsstrahlung : forall o, le (AtomicBlocks.ez_bremsstrahlung Debug o) (AtomicBlocks.ez_bremsstrahlung Release o).
Proof. intros. unfold AtomicBlocks.ez_bremsstrahlung. mono. Qed.
#[export] Hint Resolve mono_ez_bremsstrahlung : mono.
Lemma mono_ez_excitation : forall o, le (AtomicBlocks.ez_excitation Debug o) (AtomicBlocks.ez_excitation Release o).
Proof. intros. unfold AtomicBlocks.ez_excitation. mono. Qed.
#[export] Hint Resolve mono_ez_excitation : mono.
Lemma mono_ez_totalElectroionisation : forall o, le (AtomicBlocks.ez_totalElectroionisation Debug o) (AtomicBlocks.ez_totalElectroionisation Release o).
Proof. intros. unfold AtomicBlocks.ez_totalElectroionisation. mono. Qed.
#[export] Hint Resolve mono_ez_totalElectroionisation : mono.
Lemma mono_ez_electroionisation : forall o index, le (AtomicBlocks.ez_electroionisation Debug o index) (AtomicBlocks.ez_electroionisation Release o index).
Proof. intros. unfold AtomicBlocks.ez_electroionisation. mono. Qed.
#[export] Hint Resolve mono_ez_electroionisation : mono.
Lemma mono_tr_transition : forall o index, le (AtomicBlocks.tr_transition Debug o index) (AtomicBlocks.tr_transition Release o index).
Proof. intros. unfold AtomicBlocks.tr_transition. mono. Qed.
#[export] Hint Resolve mono_tr_transition : mono.
Lemma mono_tr_primaryDesignator : forall o index, le (AtomicBlocks.tr_primaryDesignator Debug o index) (AtomicBlocks.tr_primaryDesignator Release o index).
Proof. intros. unfold AtomicBlocks.tr_primaryDesignator. mono. Qed.
#[export] Hint Resolve mono_tr_primaryDesignator : mono.
Lemma mono_tr_secondaryDesignator : forall o index, le (AtomicBlocks.tr_secondaryDesignator Debug o index) (AtomicBlocks.tr_secondaryDesignator Release o index).
Proof. intros. unfold AtomicBlocks.tr_secondaryDesignator. mono. Qed.
#[export] Hint Resolve mono_tr_secondaryDesignator : mono.
Lemma mono_tr_energy : forall o index, le (AtomicBlocks.tr_energy Debug o index) (AtomicBlocks.tr_energy Release o index).
Proof. intros. unfold AtomicBlocks.tr_energy. mono. Qed.
#[export] Hint Resolve mono_tr_energy : mono.
Lemma mono_tr_probability : forall o index, le (AtomicBlocks.tr_probability Debug o index) (AtomicBlocks.tr_probability Release o index).
Proof. intros. unfold AtomicBlocks.tr_probability. mono. Qed.
#[export] Hint Resolve mono_tr_probability : mono.
Lemma mono_tr_isRadiative : forall o index, le (AtomicBlocks.tr_isRadiative Debug o index) (AtomicBlocks.tr_isRadiative Release o index).
Proof. intros. unfold AtomicBlocks.tr_isRadiative. mono. Qed.
#[export] Hint Resolve mono_tr_isRadiative : mono.
Lemma mono_eg_energies : forall o, le (AtomicBlocks.eg_energies Debug o) (AtomicBlocks.eg_energies Release o).
Proof. intros. unfold AtomicBlocks.eg_energies. mono. Qed.
#[export] Hint Resolve mono_eg_energies : mono.
Lemma mono_eg_incoherent : forall o, le (AtomicBlocks.eg_incoherent Debug o) (AtomicBlocks.eg_incoherent Release o).
Proof. intros. unfold AtomicBlocks.eg_incoherent. mono. Qed.
#[export] Hint Resolve mono_eg_incoherent : mono.
Lemma mono_eg_coherent : forall o, le (AtomicBlocks.eg_coherent Debug o) (AtomicBlocks.eg_coherent Release o).
Proof. intros. unfold AtomicBlocks.eg_coherent. mono. Qed.
#[export] Hint Resolve mono_eg_coherent : mono.
Lemma mono_eg_photoelectric : forall o, le (AtomicBlocks.eg_photoelectric Debug o) (AtomicBlocks.eg_photoelectric Release o).
Proof. intros. unfold AtomicBlocks.eg_photoelectric. mono. Qed.
#[export] Hint Resolve mono_eg_photoelectric : mono.
Lemma mono_eg_pairproduction : forall o, le (AtomicBlocks.eg_pairproduction Debug o) (AtomicBlocks.eg_pairproduction Release o).
Proof. intros. unfold AtomicBlocks.eg_pairproduction. mono. Qed.
#[export] Hint Resolve mono_eg_pairproduction : mono.
Lemma mono_jf_E : forall o, le (AtomicBlocks.jf_E Debug o) (AtomicBlocks.jf_E Release o).
Proof. intros. unfold AtomicBlocks.jf_E. mono. Qed.
#[export] Hint Resolve mono_jf_E : mono.
Lemma mono_jf_PHI : forall o, le (AtomicBlocks.jf_PHI Debug o) (AtomicBlocks.jf_PHI Release o).
Proof. intros. unfold AtomicBlocks.jf_PHI. mono. Qed.
#[export] Hint Resolve mono_jf_PHI : mono.
Lemma mono_jf_Y : forall o, le (AtomicBlocks.jf_Y Debug o) (AtomicBlocks.jf_Y Release o).
Proof. intros. unfold AtomicBlocks.jf_Y. mono. Qed.
#[export] Hint Resolve mono_jf_Y : mono.
Lemma mono_jf_F : forall o, le (AtomicBlocks.jf_F Debug o) (AtomicBlocks.jf_F Release o).
Proof. intros. unfold AtomicBlocks.jf_F. mono. Qed.
#[export] Hint Resolve mono_jf_F : mono.
Lemma mono_sp_photoelectric : forall o index, le (AtomicBlocks.sp_photoelectric Debug o index) (AtomicBlocks.sp_photoelectric Release o index).
Proof. intros. unfold AtomicBlocks.sp_photoelectric. mono. Qed.
#[export] Hint Resolve mono_sp_photoelectric : mono.
Lemma mono_ji_momentum : forall o, le (AtomicBlocks.ji_momentum Debug o) (AtomicBlocks.ji_momentum Release o).
Proof. intros. unfold AtomicBlocks.ji_momentum. mono. Qed.
#[export] Hint Resolve mono_ji_momentum : mono.
Lemma mono_ji_values : forall o, le (AtomicBlocks.ji_values Debug o) (AtomicBlocks.ji_values Release o).
Proof. intros. unfold AtomicBlocks.ji_values. mono. Qed.
#[export] Hint Resolve mono_ji_values : mono.
Lemma mono_jc_integrated : forall o, le (AtomicBlocks.jc_integrated Debug o) (AtomicBlocks.jc_integrated Release o).
Proof. intros. unfold AtomicBlocks.jc_integrated. mono. Qed.
#[export] Hint Resolve mono_jc_integrated : mono.
Lemma mono_jc_factors : forall o, le (AtomicBlocks.jc_factors Debug o) (AtomicBlocks.jc_factors Release o).
Proof. intros. unfold AtomicBlocks.jc_factors. mono. Qed.
#[export] Hint Resolve mono_jc_factors : mono.
Lemma mono_swd_gd : forall w0 v, le (AtomicBlocks.swd_gd Debug w0 v) (AtomicBlocks.swd_gd Release w0 v).
Proof. intros. unfold AtomicBlocks.swd_gd. mono. Qed.
#[export] Hint Resolve mono_swd_gd : mono.
Lemma mono_sigd_gd : forall w0 v, le (AtomicBlocks.sigd_gd Debug w0 v) (AtomicBlocks.sigd_gd Release w0 v).
Proof. intros. unfold AtomicBlocks.sigd_gd. mono. Qed.
#[export] Hint Resolve mono_sigd_gd : mono.
Lemma mono_eu_energies : forall o, le (AtomicBlocks.eu_energies Debug o) (AtomicBlocks.eu_energies Release o).
Proof. intros. unfold AtomicBlocks.eu_energies. mono. Qed.
#[export] Hint Resolve mono_eu_energies : mono.
Lemma mono_eu_total : forall o, le (AtomicBlocks.eu_total Debug o) (AtomicBlocks.eu_total Release o).
Proof. intros. unfold AtomicBlocks.eu_total. mono. Qed.
#[export] Hint Resolve mono_eu_total : mono.
Lemma mono_eu_elastic : forall o, le (AtomicBlocks.eu_elastic Debug o) (AtomicBlocks.eu_elastic Release o).
Proof. intros. unfold AtomicBlocks.eu_elastic. mono. Qed.
#[export] Hint Resolve mono_eu_elastic : mono.
Lemma mono_eu_heating : forall o, le (AtomicBlocks.eu_heating Debug o) (AtomicBlocks.eu_heating Release o).
Proof. intros. unfold AtomicBlocks.eu_heating. mono. Qed.
#[export] Hint Resolve mono_eu_heating : mono.
Lemma mono_iu_LLOC : forall o particle index, le (AtomicBlocks.iu_LLOC Debug o particle index) (AtomicBlocks.iu_LLOC Release o particle index).
Proof. intros. unfold AtomicBlocks.iu_LLOC. mono. Qed.
#[export] Hint Resolve mono_iu_LLOC : mono.
Lemma mono_iu_IP : forall o index, le (AtomicBlocks.iu_IP Debug o index) (AtomicBlocks.iu_IP Release o index).
Proof. intros. unfold AtomicBlocks.iu_IP. mono. Qed.
#[export] Hint Resolve mono_iu_IP : mono.
Lemma mono_iu_NP : forall o index, le (AtomicBlocks.iu_NP Debug o index) (AtomicBlocks.iu_NP Release o index).
Proof. intros. unfold AtomicBlocks.iu_NP. mono. Qed.
#[export] Hint Resolve mono_iu_NP : mono.
Lemma mono_iu_find : forall o type index n, le (AtomicBlocks.iu_find Debug o type index n) (AtomicBlocks.iu_find Release o type index n).
Proof. intros until n. revert type index. induction n as [|? IH]; intros; cbn [AtomicBlocks.iu_find]; mono. Qed.
#[export] Hint Resolve mono_iu_find : mono.
Lemma mono_iu_hasIP : forall o type, le (AtomicBlocks.iu_hasIP Debug o type) (AtomicBlocks.iu_hasIP Release o type).
Proof. intros. unfold AtomicBlocks.iu_hasIP. mono. Qed.
#[export] Hint Resolve mono_iu_hasIP : mono.
Lemma mono_iu_index : forall o type, le (AtomicBlocks.iu_index Debug o type) (AtomicBlocks.iu_index Release o type).
Proof. intros. unfold AtomicBlocks.iu_index. mono. Qed.
#[export] Hint Resolve mono_iu_index : mono.

(** ** TableData *)
Lemma mono_fetch {A : Type} : forall s index, le (TableData.fetch (A:=A) Debug s index) (TableData.fetch (A:=A) Release s index).
Proof. intros. unfold TableData.fetch. mono. Qed.
#[export] Hint Resolve mono_fetch : mono.
Lemma mono_store {A : Type} : forall s index x, le (TableData.store (A:=A) Debug s index x) (TableData.store (A:=A) Release s index x).
Proof. intros. unfold TableData.store. mono. Qed.
#[export] Hint Resolve mono_store : mono.
Lemma mono_d_IZ : forall d index, le (TableData.d_IZ Debug d index) (TableData.d_IZ Release d index).
Proof. intros. unfold TableData.d_IZ. mono. Qed.
#[export] Hint Resolve mono_d_IZ : mono.
Lemma mono_d_AW : forall d index, le (TableData.d_AW Debug d index) (TableData.d_AW Release d index).
Proof. intros. unfold TableData.d_AW. mono. Qed.
#[export] Hint Resolve mono_d_AW : mono.
Lemma mono_d_NXS : forall d index, le (TableData.d_NXS Debug d index) (TableData.d_NXS Release d index).
Proof. intros. unfold TableData.d_NXS. mono. Qed.
#[export] Hint Resolve mono_d_NXS : mono.
Lemma mono_d_JXS : forall d index, le (TableData.d_JXS Debug d index) (TableData.d_JXS Release d index).
Proof. intros. unfold TableData.d_JXS. mono. Qed.
#[export] Hint Resolve mono_d_JXS : mono.
Lemma mono_d_XSS : forall d index, le (TableData.d_XSS Debug d index) (TableData.d_XSS Release d index).
Proof. intros. unfold TableData.d_XSS. mono. Qed.
#[export] Hint Resolve mono_d_XSS : mono.
Lemma mono_d_IXSS : forall d index, le (TableData.d_IXSS Debug d index) (TableData.d_IXSS Release d index).
Proof. intros. unfold TableData.d_IXSS. mono. Qed.
#[export] Hint Resolve mono_d_IXSS : mono.
Lemma mono_d_XSSr : forall d index length, le (TableData.d_XSSr Debug d index length) (TableData.d_XSSr Release d index length).
Proof. intros. unfold TableData.d_XSSr. mono. Qed.
#[export] Hint Resolve mono_d_XSSr : mono.

(** ** DosimetryTable *)
Lemma mono_dt_length : forall d, le (DosimetryTable.dt_length Debug d) (DosimetryTable.dt_length Release d).
Proof. intros. unfold DosimetryTable.dt_length. mono. Qed.
#[export] Hint Resolve mono_dt_length : mono.
Lemma mono_dt_ZA : forall d, le (DosimetryTable.dt_ZA Debug d) (DosimetryTable.dt_ZA Release d).
Proof. intros. unfold DosimetryTable.dt_ZA. mono. Qed.
#[export] Hint Resolve mono_dt_ZA : mono.
Lemma mono_dt_NTR : forall d, le (DosimetryTable.dt_NTR Debug d) (DosimetryTable.dt_NTR Release d).
Proof. intros. unfold DosimetryTable.dt_NTR. mono. Qed.
#[export] Hint Resolve mono_dt_NTR : mono.
Lemma mono_dt_make : forall zaid d, le (DosimetryTable.dt_make Debug zaid d) (DosimetryTable.dt_make Release zaid d).
Proof. intros. unfold DosimetryTable.dt_make. mono. Qed.
#[export] Hint Resolve mono_dt_make : mono.
Lemma mono_dt_of : forall z a zaid mtr sigd, le (DosimetryTable.dt_of Debug z a zaid mtr sigd) (DosimetryTable.dt_of Release z a zaid mtr sigd).
Proof. intros. unfold DosimetryTable.dt_of. mono. Qed.
#[export] Hint Resolve mono_dt_of : mono.

(** ** SZA *)
Lemma mono_setSZA : forall zaid d, le (SZA.setSZA Debug zaid d) (SZA.setSZA Release zaid d).
Proof. intros. unfold SZA.setSZA. mono. Qed.
#[export] Hint Resolve mono_setSZA : mono.

(** ** ContinuousTable *)
Lemma mono_ce_generateTYR : forall o ntr, le (ContinuousTable.ce_generateTYR Debug o ntr) (ContinuousTable.ce_generateTYR Release o ntr).
Proof. intros. unfold ContinuousTable.ce_generateTYR. mono. Qed.
#[export] Hint Resolve mono_ce_generateTYR : mono.
Lemma mono_ce_generateTYRH : forall os, le (ContinuousTable.ce_generateTYRH Debug os) (ContinuousTable.ce_generateTYRH Release os).
Proof. intros. unfold ContinuousTable.ce_generateTYRH. mono. Qed.
#[export] Hint Resolve mono_ce_generateTYRH : mono.
Lemma mono_nud_LNU : forall d, le (ContinuousTable.nud_LNU Debug d) (ContinuousTable.nud_LNU Release d).
Proof. intros. unfold ContinuousTable.nud_LNU. mono. Qed.
#[export] Hint Resolve mono_nud_LNU : mono.
Lemma mono_ce_verify : forall i t th, le (ContinuousTable.ce_verify Debug i t th) (ContinuousTable.ce_verify Release i t th).
Proof. intros. unfold ContinuousTable.ce_verify. mono. Qed.
#[export] Hint Resolve mono_ce_verify : mono.
Lemma mono_ce_ends : forall i st, le (ContinuousTable.ce_ends Debug i st) (ContinuousTable.ce_ends Release i st).
Proof. intros. unfold ContinuousTable.ce_ends. mono. Qed.
#[export] Hint Resolve mono_ce_ends : mono.
Lemma mono_ce_generateData : forall z a s i, le (ContinuousTable.ce_generateData Debug z a s i) (ContinuousTable.ce_generateData Release z a s i).
Proof. intros. unfold ContinuousTable.ce_generateData. mono. Qed.
#[export] Hint Resolve mono_ce_generateData : mono.
Lemma mono_ce_block : forall d ntype index, le (ContinuousTable.ce_block Debug d ntype index) (ContinuousTable.ce_block Release d ntype index).
Proof. intros. unfold ContinuousTable.ce_block. mono. Qed.
#[export] Hint Resolve mono_ce_block : mono.
Lemma mono_ce_pblock : forall d ixs particle index, le (ContinuousTable.ce_pblock Debug d ixs particle index) (ContinuousTable.ce_pblock Release d ixs particle index).
Proof. intros. unfold ContinuousTable.ce_pblock. mono. Qed.
#[export] Hint Resolve mono_ce_pblock : mono.
Lemma mono_ce_N : forall d k, le (ContinuousTable.ce_N Debug d k) (ContinuousTable.ce_N Release d k).
Proof. intros. unfold ContinuousTable.ce_N. mono. Qed.
#[export] Hint Resolve mono_ce_N : mono.
Lemma mono_one {A : Type} : forall make1 make2, (forall a, le (make1 a) (make2 a)) -> forall d ntype index, le (ContinuousTable.one (A:=A) Debug d ntype index make1) (ContinuousTable.one (A:=A) Release d ntype index make2).
Proof. intros. unfold ContinuousTable.one. mono. Qed.
#[export] Hint Resolve mono_one : mono.
Lemma mono_two {A : Type} : forall make1 make2, (forall a b, le (make1 a b) (make2 a b)) -> forall d ntype index, le (ContinuousTable.two (A:=A) Debug d ntype index make1) (ContinuousTable.two (A:=A) Release d ntype index make2).
Proof. intros. unfold ContinuousTable.two. mono. Qed.
#[export] Hint Resolve mono_two : mono.
Lemma mono_ce_particle_blocks : forall d ntro ixs k, le (ContinuousTable.ce_particle_blocks Debug d ntro ixs k) (ContinuousTable.ce_particle_blocks Release d ntro ixs k).
Proof. intros. unfold ContinuousTable.ce_particle_blocks. mono. Qed.
#[export] Hint Resolve mono_ce_particle_blocks : mono.
Lemma le_opt_block {A} (c : bool) (a b : outcome A) : le a b -> le (opt_block c a) (opt_block c b).
Proof. intros L. unfold opt_block. mono. Qed.
Lemma mono_ce_generateBlocks : forall zaid d, le (ce_generateBlocks Debug zaid d) (ce_generateBlocks Release zaid d).
Proof. intros. unfold ce_generateBlocks. repeat first [apply le_opt_block | mono_step]. Qed.
#[export] Hint Resolve mono_ce_generateBlocks : mono.
Lemma mono_ce_make : forall zaid d, le (ContinuousTable.ce_make Debug zaid d) (ContinuousTable.ce_make Release zaid d).
Proof. intros. unfold ContinuousTable.ce_make. mono. Qed.
#[export] Hint Resolve mono_ce_make : mono.
Lemma mono_ce_of : forall z a s zaid i, le (ContinuousTable.ce_of Debug z a s zaid i) (ContinuousTable.ce_of Release z a s zaid i).
Proof. intros. unfold ContinuousTable.ce_of. mono. Qed.
#[export] Hint Resolve mono_ce_of : mono.

(** ** ThermalBlocks *)
Lemma mono_tc_energies : forall c, le (ThermalBlocks.tc_energies Debug c) (ThermalBlocks.tc_energies Release c).
Proof. intros. unfold ThermalBlocks.tc_energies. mono. Qed.
#[export] Hint Resolve mono_tc_energies : mono.
Lemma mono_tc_crossSections : forall c, le (ThermalBlocks.tc_crossSections Debug c) (ThermalBlocks.tc_crossSections Release c).
Proof. intros. unfold ThermalBlocks.tc_crossSections. mono. Qed.
#[export] Hint Resolve mono_tc_crossSections : mono.
Lemma mono_te_cosines : forall a index, le (ThermalBlocks.te_cosines Debug a index) (ThermalBlocks.te_cosines Release a index).
Proof. intros. unfold ThermalBlocks.te_cosines. mono. Qed.
#[export] Hint Resolve mono_te_cosines : mono.
Lemma mono_cos_energy : forall d, le (ThermalBlocks.cos_energy Debug d) (ThermalBlocks.cos_energy Release d).
Proof. intros. unfold ThermalBlocks.cos_energy. mono. Qed.
#[export] Hint Resolve mono_cos_energy : mono.
Lemma mono_cos_pdf : forall v, le (ThermalBlocks.cos_pdf Debug v) (ThermalBlocks.cos_pdf Release v).
Proof. intros. unfold ThermalBlocks.cos_pdf. mono. Qed.
#[export] Hint Resolve mono_cos_pdf : mono.
Lemma mono_cos_cdf : forall v, le (ThermalBlocks.cos_cdf Debug v) (ThermalBlocks.cos_cdf Release v).
Proof. intros. unfold ThermalBlocks.cos_cdf. mono. Qed.
#[export] Hint Resolve mono_cos_cdf : mono.
Lemma mono_cos_cosines : forall d, le (ThermalBlocks.cos_cosines Debug d) (ThermalBlocks.cos_cosines Release d).
Proof. intros. unfold ThermalBlocks.cos_cosines. mono. Qed.
#[export] Hint Resolve mono_cos_cosines : mono.
Lemma mono_it_LOCC : forall o index, le (ThermalBlocks.it_LOCC Debug o index) (ThermalBlocks.it_LOCC Release o index).
Proof. intros. unfold ThermalBlocks.it_LOCC. mono. Qed.
#[export] Hint Resolve mono_it_LOCC : mono.
Lemma mono_it_relative : forall o index, le (ThermalBlocks.it_relative Debug o index) (ThermalBlocks.it_relative Release o index).
Proof. intros. unfold ThermalBlocks.it_relative. mono. Qed.
#[export] Hint Resolve mono_it_relative : mono.
Lemma mono_it_NIEB : forall o index, le (ThermalBlocks.it_NIEB Debug o index) (ThermalBlocks.it_NIEB Release o index).
Proof. intros. unfold ThermalBlocks.it_NIEB. mono. Qed.
#[export] Hint Resolve mono_it_NIEB : mono.
Lemma mono_it_cosineData : forall o incident outgoing, le (ThermalBlocks.it_cosineData Debug o incident outgoing) (ThermalBlocks.it_cosineData Release o incident outgoing).
Proof. intros. unfold ThermalBlocks.it_cosineData. mono. Qed.
#[export] Hint Resolve mono_it_cosineData : mono.
Lemma mono_it_in01 : forall o n incident current, le (ThermalBlocks.it_in01 Debug o n incident current) (ThermalBlocks.it_in01 Release o n incident current).
Proof. intros until n. induction n as [|? IH]; intros; cbn [ThermalBlocks.it_in01]; mono. Qed.
#[export] Hint Resolve mono_it_in01 : mono.
Lemma mono_it_in2 : forall o n incident current, le (ThermalBlocks.it_in2 Debug o n incident current) (ThermalBlocks.it_in2 Release o n incident current).
Proof. intros until n. induction n as [|? IH]; intros; cbn [ThermalBlocks.it_in2]; mono. Qed.
#[export] Hint Resolve mono_it_in2 : mono.
Lemma mono_it_generateBlocks : forall o, le (ThermalBlocks.it_generateBlocks Debug o) (ThermalBlocks.it_generateBlocks Release o).
Proof. intros. unfold ThermalBlocks.it_generateBlocks. mono. Qed.
#[export] Hint Resolve mono_it_generateBlocks : mono.
Lemma mono_it_make : forall ifeng nieb nc ne locb v, le (ThermalBlocks.it_make Debug ifeng nieb nc ne locb v) (ThermalBlocks.it_make Release ifeng nieb nc ne locb v).
Proof. intros. unfold ThermalBlocks.it_make. mono. Qed.
#[export] Hint Resolve mono_it_make : mono.
Lemma mono_it_of01 : forall cosines skewed locb, le (ThermalBlocks.it_of01 Debug cosines skewed locb) (ThermalBlocks.it_of01 Release cosines skewed locb).
Proof. intros. unfold ThermalBlocks.it_of01. mono. Qed.
#[export] Hint Resolve mono_it_of01 : mono.
Lemma mono_it_of2 : forall cosines locb, le (ThermalBlocks.it_of2 Debug cosines locb) (ThermalBlocks.it_of2 Release cosines locb).
Proof. intros. unfold ThermalBlocks.it_of2. mono. Qed.
#[export] Hint Resolve mono_it_of2 : mono.
Lemma mono_it_built : forall ifeng locb cs, le (ThermalBlocks.it_built Debug ifeng locb cs) (ThermalBlocks.it_built Release ifeng locb cs).
Proof. intros. unfold ThermalBlocks.it_built. mono. Qed.
#[export] Hint Resolve mono_it_built : mono.

(** ** ThermalTable *)
Lemma mono_th_xs : forall k c st, le (ThermalTable.th_xs Debug k c st) (ThermalTable.th_xs Release k c st).
Proof. intros. unfold ThermalTable.th_xs. mono. Qed.
#[export] Hint Resolve mono_th_xs : mono.
Lemma mono_th_generateData : forall i, le (ThermalTable.th_generateData Debug i) (ThermalTable.th_generateData Release i).
Proof. intros. unfold ThermalTable.th_generateData. mono. Qed.
#[export] Hint Resolve mono_th_generateData : mono.
Lemma mono_th_length : forall d, le (ThermalTable.th_length Debug d) (ThermalTable.th_length Release d).
Proof. intros. unfold ThermalTable.th_length. mono. Qed.
#[export] Hint Resolve mono_th_length : mono.
Lemma mono_th_IDPNI : forall d, le (ThermalTable.th_IDPNI Debug d) (ThermalTable.th_IDPNI Release d).
Proof. intros. unfold ThermalTable.th_IDPNI. mono. Qed.
#[export] Hint Resolve mono_th_IDPNI : mono.
Lemma mono_th_NIL : forall d, le (ThermalTable.th_NIL Debug d) (ThermalTable.th_NIL Release d).
Proof. intros. unfold ThermalTable.th_NIL. mono. Qed.
#[export] Hint Resolve mono_th_NIL : mono.
Lemma mono_th_NIEB : forall d, le (ThermalTable.th_NIEB Debug d) (ThermalTable.th_NIEB Release d).
Proof. intros. unfold ThermalTable.th_NIEB. mono. Qed.
#[export] Hint Resolve mono_th_NIEB : mono.
Lemma mono_th_IDPNC : forall d, le (ThermalTable.th_IDPNC Debug d) (ThermalTable.th_IDPNC Release d).
Proof. intros. unfold ThermalTable.th_IDPNC. mono. Qed.
#[export] Hint Resolve mono_th_IDPNC : mono.
Lemma mono_th_NCL : forall d, le (ThermalTable.th_NCL Debug d) (ThermalTable.th_NCL Release d).
Proof. intros. unfold ThermalTable.th_NCL. mono. Qed.
#[export] Hint Resolve mono_th_NCL : mono.
Lemma mono_th_IFENG : forall d, le (ThermalTable.th_IFENG Debug d) (ThermalTable.th_IFENG Release d).
Proof. intros. unfold ThermalTable.th_IFENG. mono. Qed.
#[export] Hint Resolve mono_th_IFENG : mono.
Lemma mono_th_NCLI : forall d, le (ThermalTable.th_NCLI Debug d) (ThermalTable.th_NCLI Release d).
Proof. intros. unfold ThermalTable.th_NCLI. mono. Qed.
#[export] Hint Resolve mono_th_NCLI : mono.
Lemma mono_th_block : forall d index, le (ThermalTable.th_block Debug d index) (ThermalTable.th_block Release d index).
Proof. intros. unfold ThermalTable.th_block. mono. Qed.
#[export] Hint Resolve mono_th_block : mono.
Lemma mono_th_inelastic : forall d, le (ThermalTable.th_inelastic Debug d) (ThermalTable.th_inelastic Release d).
Proof. intros. unfold ThermalTable.th_inelastic. mono. Qed.
#[export] Hint Resolve mono_th_inelastic : mono.
Lemma mono_th_coherent : forall d, le (ThermalTable.th_coherent Debug d) (ThermalTable.th_coherent Release d).
Proof. intros. unfold ThermalTable.th_coherent. mono. Qed.
#[export] Hint Resolve mono_th_coherent : mono.
Lemma mono_th_incoherent : forall d, le (ThermalTable.th_incoherent Debug d) (ThermalTable.th_incoherent Release d).
Proof. intros. unfold ThermalTable.th_incoherent. mono. Qed.
#[export] Hint Resolve mono_th_incoherent : mono.
Lemma mono_th_make : forall zaid d, le (ThermalTable.th_make Debug zaid d) (ThermalTable.th_make Release zaid d).
Proof. intros. unfold ThermalTable.th_make. mono. Qed.
#[export] Hint Resolve mono_th_make : mono.
Lemma mono_th_of : forall zaid i, le (ThermalTable.th_of Debug zaid i) (ThermalTable.th_of Release zaid i).
Proof. intros. unfold ThermalTable.th_of. mono. Qed.
#[export] Hint Resolve mono_th_of : mono.
Lemma mono_th_build : forall zaid v, le (ThermalTable.th_build Debug zaid v) (ThermalTable.th_build Release zaid v).
Proof. intros. unfold ThermalTable.th_build. mono. Qed.
#[export] Hint Resolve mono_th_build : mono.

(** ** PhotoatomicTable *)
Lemma mono_pa_N : forall d k, le (PhotoatomicTable.pa_N Debug d k) (PhotoatomicTable.pa_N Release d k).
Proof. intros. unfold PhotoatomicTable.pa_N. mono. Qed.
#[export] Hint Resolve mono_pa_N : mono.
Lemma mono_pa_length : forall d, le (PhotoatomicTable.pa_length Debug d) (PhotoatomicTable.pa_length Release d).
Proof. intros. unfold PhotoatomicTable.pa_length. mono. Qed.
#[export] Hint Resolve mono_pa_length : mono.
Lemma mono_pa_Z : forall d, le (PhotoatomicTable.pa_Z Debug d) (PhotoatomicTable.pa_Z Release d).
Proof. intros. unfold PhotoatomicTable.pa_Z. mono. Qed.
#[export] Hint Resolve mono_pa_Z : mono.
Lemma mono_pa_NES : forall d, le (PhotoatomicTable.pa_NES Debug d) (PhotoatomicTable.pa_NES Release d).
Proof. intros. unfold PhotoatomicTable.pa_NES. mono. Qed.
#[export] Hint Resolve mono_pa_NES : mono.
Lemma mono_pa_NFLO : forall d, le (PhotoatomicTable.pa_NFLO Debug d) (PhotoatomicTable.pa_NFLO Release d).
Proof. intros. unfold PhotoatomicTable.pa_NFLO. mono. Qed.
#[export] Hint Resolve mono_pa_NFLO : mono.
Lemma mono_pa_NSH : forall d, le (PhotoatomicTable.pa_NSH Debug d) (PhotoatomicTable.pa_NSH Release d).
Proof. intros. unfold PhotoatomicTable.pa_NSH. mono. Qed.
#[export] Hint Resolve mono_pa_NSH : mono.
Lemma mono_pa_NEPR : forall d, le (PhotoatomicTable.pa_NEPR Debug d) (PhotoatomicTable.pa_NEPR Release d).
Proof. intros. unfold PhotoatomicTable.pa_NEPR. mono. Qed.
#[export] Hint Resolve mono_pa_NEPR : mono.
Lemma mono_pa_NSSH : forall d, le (PhotoatomicTable.pa_NSSH Debug d) (PhotoatomicTable.pa_NSSH Release d).
Proof. intros. unfold PhotoatomicTable.pa_NSSH. mono. Qed.
#[export] Hint Resolve mono_pa_NSSH : mono.
Lemma mono_pa_NE : forall d, le (PhotoatomicTable.pa_NE Debug d) (PhotoatomicTable.pa_NE Release d).
Proof. intros. unfold PhotoatomicTable.pa_NE. mono. Qed.
#[export] Hint Resolve mono_pa_NE : mono.
Lemma mono_pa_NXL : forall d, le (PhotoatomicTable.pa_NXL Debug d) (PhotoatomicTable.pa_NXL Release d).
Proof. intros. unfold PhotoatomicTable.pa_NXL. mono. Qed.
#[export] Hint Resolve mono_pa_NXL : mono.
Lemma mono_pa_NA : forall d, le (PhotoatomicTable.pa_NA Debug d) (PhotoatomicTable.pa_NA Release d).
Proof. intros. unfold PhotoatomicTable.pa_NA. mono. Qed.
#[export] Hint Resolve mono_pa_NA : mono.
Lemma mono_pa_NB : forall d, le (PhotoatomicTable.pa_NB Debug d) (PhotoatomicTable.pa_NB Release d).
Proof. intros. unfold PhotoatomicTable.pa_NB. mono. Qed.
#[export] Hint Resolve mono_pa_NB : mono.
Lemma mono_pa_NBL : forall d, le (PhotoatomicTable.pa_NBL Debug d) (PhotoatomicTable.pa_NBL Release d).
Proof. intros. unfold PhotoatomicTable.pa_NBL. mono. Qed.
#[export] Hint Resolve mono_pa_NBL : mono.
Lemma mono_pa_NINC : forall d, le (PhotoatomicTable.pa_NINC Debug d) (PhotoatomicTable.pa_NINC Release d).
Proof. intros. unfold PhotoatomicTable.pa_NINC. mono. Qed.
#[export] Hint Resolve mono_pa_NINC : mono.
Lemma mono_pa_NCOH : forall d, le (PhotoatomicTable.pa_NCOH Debug d) (PhotoatomicTable.pa_NCOH Release d).
Proof. intros. unfold PhotoatomicTable.pa_NCOH. mono. Qed.
#[export] Hint Resolve mono_pa_NCOH : mono.
Lemma mono_pa_block : forall d index, le (PhotoatomicTable.pa_block Debug d index) (PhotoatomicTable.pa_block Release d index).
Proof. intros. unfold PhotoatomicTable.pa_block. mono. Qed.
#[export] Hint Resolve mono_pa_block : mono.
Lemma mono_pa_eion_block : forall d index, le (PhotoatomicTable.pa_eion_block Debug d index) (PhotoatomicTable.pa_eion_block Release d index).
Proof. intros. unfold PhotoatomicTable.pa_eion_block. mono. Qed.
#[export] Hint Resolve mono_pa_eion_block : mono.
Lemma mono_pa_basic : forall d, le (PhotoatomicTable.pa_basic Debug d) (PhotoatomicTable.pa_basic Release d).
Proof. intros. unfold PhotoatomicTable.pa_basic. mono. Qed.
#[export] Hint Resolve mono_pa_basic : mono.
Lemma mono_pa_shells : forall d, le (PhotoatomicTable.pa_shells Debug d) (PhotoatomicTable.pa_shells Release d).
Proof. intros. unfold PhotoatomicTable.pa_shells. mono. Qed.
#[export] Hint Resolve mono_pa_shells : mono.
Lemma mono_pa_electrons : forall d, le (PhotoatomicTable.pa_electrons Debug d) (PhotoatomicTable.pa_electrons Release d).
Proof. intros. unfold PhotoatomicTable.pa_electrons. mono. Qed.
#[export] Hint Resolve mono_pa_electrons : mono.
Lemma mono_pa_make : forall zaid d, le (PhotoatomicTable.pa_make Debug zaid d) (PhotoatomicTable.pa_make Release zaid d).
Proof. intros. unfold PhotoatomicTable.pa_make. mono. Qed.
#[export] Hint Resolve mono_pa_make : mono.
Lemma mono_pa_of : forall zaid i, le (PhotoatomicTable.pa_of Debug zaid i) (PhotoatomicTable.pa_of Release zaid i).
Proof. intros. unfold PhotoatomicTable.pa_of. mono. Qed.
#[export] Hint Resolve mono_pa_of : mono.
Lemma mono_pa_EION : forall t index, le (PhotoatomicTable.pa_EION Debug t index) (PhotoatomicTable.pa_EION Release t index).
Proof. intros. unfold PhotoatomicTable.pa_EION. mono. Qed.
#[export] Hint Resolve mono_pa_EION : mono.

(** ** TableText *)
Lemma mono_pair_at : forall d i, le (TableText.pair_at Debug d i) (TableText.pair_at Release d i).
Proof. intros. unfold TableText.pair_at. mono. Qed.
#[export] Hint Resolve mono_pair_at : mono.
Lemma mono_print_data : forall d, le (TableText.print_data Debug d) (TableText.print_data Release d).
Proof. intros. unfold TableText.print_data. mono. Qed.
#[export] Hint Resolve mono_print_data : mono.
Lemma mono_print_table : forall t, le (TableText.print_table Debug t) (TableText.print_table Release t).
Proof. intros. unfold TableText.print_table. mono. Qed.
#[export] Hint Resolve mono_print_table : mono.

(** ** PhotonuclearTable *)
Lemma mono_pu_generateData : forall z a s i, le (PhotonuclearTable.pu_generateData Debug z a s i) (PhotonuclearTable.pu_generateData Release z a s i).
Proof. intros. unfold PhotonuclearTable.pu_generateData. mono. Qed.
#[export] Hint Resolve mono_pu_generateData : mono.
Lemma mono_pu_N : forall d k, le (PhotonuclearTable.pu_N Debug d k) (PhotonuclearTable.pu_N Release d k).
Proof. intros. unfold PhotonuclearTable.pu_N. mono. Qed.
#[export] Hint Resolve mono_pu_N : mono.
Lemma mono_pu_length : forall d, le (PhotonuclearTable.pu_length Debug d) (PhotonuclearTable.pu_length Release d).
Proof. intros. unfold PhotonuclearTable.pu_length. mono. Qed.
#[export] Hint Resolve mono_pu_length : mono.
Lemma mono_pu_ZA : forall d, le (PhotonuclearTable.pu_ZA Debug d) (PhotonuclearTable.pu_ZA Release d).
Proof. intros. unfold PhotonuclearTable.pu_ZA. mono. Qed.
#[export] Hint Resolve mono_pu_ZA : mono.
Lemma mono_pu_NES : forall d, le (PhotonuclearTable.pu_NES Debug d) (PhotonuclearTable.pu_NES Release d).
Proof. intros. unfold PhotonuclearTable.pu_NES. mono. Qed.
#[export] Hint Resolve mono_pu_NES : mono.
Lemma mono_pu_NTR : forall d, le (PhotonuclearTable.pu_NTR Debug d) (PhotonuclearTable.pu_NTR Release d).
Proof. intros. unfold PhotonuclearTable.pu_NTR. mono. Qed.
#[export] Hint Resolve mono_pu_NTR : mono.
Lemma mono_pu_NTYPE : forall d, le (PhotonuclearTable.pu_NTYPE Debug d) (PhotonuclearTable.pu_NTYPE Release d).
Proof. intros. unfold PhotonuclearTable.pu_NTYPE. mono. Qed.
#[export] Hint Resolve mono_pu_NTYPE : mono.
Lemma mono_pu_S : forall d, le (PhotonuclearTable.pu_S Debug d) (PhotonuclearTable.pu_S Release d).
Proof. intros. unfold PhotonuclearTable.pu_S. mono. Qed.
#[export] Hint Resolve mono_pu_S : mono.
Lemma mono_pu_Z : forall d, le (PhotonuclearTable.pu_Z Debug d) (PhotonuclearTable.pu_Z Release d).
Proof. intros. unfold PhotonuclearTable.pu_Z. mono. Qed.
#[export] Hint Resolve mono_pu_Z : mono.
Lemma mono_pu_A : forall d, le (PhotonuclearTable.pu_A Debug d) (PhotonuclearTable.pu_A Release d).
Proof. intros. unfold PhotonuclearTable.pu_A. mono. Qed.
#[export] Hint Resolve mono_pu_A : mono.
Lemma mono_pu_pblock : forall d ixs particle index, le (PhotonuclearTable.pu_pblock Debug d ixs particle index) (PhotonuclearTable.pu_pblock Release d ixs particle index).
Proof. intros. unfold PhotonuclearTable.pu_pblock. mono. Qed.
#[export] Hint Resolve mono_pu_pblock : mono.
Lemma mono_pu_particle_blocks : forall d ixs k, le (PhotonuclearTable.pu_particle_blocks Debug d ixs k) (PhotonuclearTable.pu_particle_blocks Release d ixs k).
Proof. intros. unfold PhotonuclearTable.pu_particle_blocks. mono. Qed.
#[export] Hint Resolve mono_pu_particle_blocks : mono.
Lemma mono_pu_generateBlocks : forall zaid d, le (PhotonuclearTable.pu_generateBlocks Debug zaid d) (PhotonuclearTable.pu_generateBlocks Release zaid d).
Proof. intros. unfold PhotonuclearTable.pu_generateBlocks. mono. Qed.
#[export] Hint Resolve mono_pu_generateBlocks : mono.
Lemma mono_pu_make : forall zaid d, le (PhotonuclearTable.pu_make Debug zaid d) (PhotonuclearTable.pu_make Release zaid d).
Proof. intros. unfold PhotonuclearTable.pu_make. mono. Qed.
#[export] Hint Resolve mono_pu_make : mono.
Lemma mono_pu_of : forall z a s zaid i, le (PhotonuclearTable.pu_of Debug z a s zaid i) (PhotonuclearTable.pu_of Release z a s zaid i).
Proof. intros. unfold PhotonuclearTable.pu_of. mono. Qed.
#[export] Hint Resolve mono_pu_of : mono.
