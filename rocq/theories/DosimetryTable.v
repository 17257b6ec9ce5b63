(** DosimetryTable. *)
From Coq Require Import ZArith Bool List Lia Ascii.
From Coq Require Import ZifyBool ZifyNat.
From Verif Require Import PropLemmasBasic.
From Verif Require Export TableData.
Import ListNotations.
Open Scope Z_scope.

(** The constructor [make] accepts every view showing exactly [w] and gives an object with [S]:
    what the block properties say about the words of a valid block. *)
Definition readable {A} (make : view -> outcome A) (w : list double) (S : A -> Prop) : Prop :=
  forall v, content v w -> exists o, make v = Ok o /\ S o.

(** verifyType, e.g. src/ACEtk/DosimetryTable/src/verifyType.hpp:1-11: the last character of the
    ZAID; back() of an empty string is undefined. *)
Definition verifyType (accepted : list ascii) (zaid : list ascii) : outcome unit :=
  match rev zaid with
  | [] => UB
  | c :: _ => throw_if (negb (existsb (Ascii.eqb c) accepted)) StdException
  end.

Definition zeros (n : nat) : list Z := repeat 0 n.
Definition dzeros (n : nat) : list double := repeat (dbl 0) n.

(** generateData, src/ACEtk/DosimetryTable/src/generateData.hpp:1-43.  The blocks are given by the
    number of reactions they report and their words. *)
Definition dos_generateData (z a : Z) (ntr : Z) (mtr : list double) (ntr' : Z) (sigd : list double) : outcome tdata :=
  _ <- throw_if (negb (ntr =? ntr')) StdException ;;
  let jxs := zeros 32 in
  jxs <- upd 0 1 jxs ;;
  jxs <- upd 2 1 jxs ;;
  let xss := mtr in
  jxs <- upd 5 (len xss + 1) jxs ;;
  jxs <- upd 6 (len xss + ntr + 1) jxs ;;
  let xss := xss ++ sigd in
  jxs <- upd 21 (len xss) jxs ;;
  let nxs := zeros 16 in
  nxs <- upd 0 (len xss) nxs ;;
  nxs <- upd 1 (u32 (u32 (z * 1000) + a)) nxs ;;
  nxs <- upd 3 ntr nxs ;;
  Ok (TData (zeros 16) (dzeros 16) nxs jxs xss).

(** The members, src/ACEtk/DosimetryTable.hpp:22-24 *)
Record dosTable := DosTable { dt_zaid : list ascii; dt_data : tdata; dt_mtr : arrayData; dt_sig : blockWithLocators tabulatedData }.

(** length(), ZA(), NTR(): DosimetryTable.hpp:108-118; int64_t converted to unsigned int *)
Definition dt_length bm (d : tdata) : outcome Z := n <- d_NXS bm d 1 ;; Ok (u32 n).
Definition dt_ZA bm (d : tdata) : outcome Z := n <- d_NXS bm d 2 ;; Ok (u32 n).
Definition dt_NTR bm (d : tdata) : outcome Z := n <- d_NXS bm d 4 ;; Ok (u32 n).

(** Constructor from a table, src/ctor.hpp:6-21 with generateBlocks, DosimetryTable.hpp:27-37 *)
Definition dt_make bm (zaid : list ascii) (d : tdata) : outcome dosTable :=
  _ <- verifyType ["y"%char] zaid ;;
  mtr <- d_JXS bm d 3 ;;
  lsig <- d_JXS bm d 6 ;;
  sig <- d_JXS bm d 7 ;;
  ntr <- dt_NTR bm d ;;
  m <- mt_make (tview d (mtr - 1) (lsig - 1)) ntr ;;
  s <- bl_make bm (sigd_gd bm) (tview d (lsig - 1) (len (d_xss d))) (sig - 1) ntr true ;;
  Ok (DosTable zaid d m s).

(** Constructor from blocks, src/ctor.hpp:88-92 *)
Definition dt_of bm (z a : Z) (zaid : list ascii) (mtr : arrayData) (sigd : blockWithLocators tabulatedData) : outcome dosTable :=
  wm <- xss_all (ad_v mtr) ;;
  ws <- xss_all (bl_v sigd) ;;
  d <- dos_generateData z a (mt_NTR mtr) wm (bl_n sigd) ws ;;
  dt_make bm zaid d.

(** ** Theorem *)

Lemma dt_round_trip bm z a zaid mtr sigd wm cs (Sm : arrayData -> Prop) (Ss : blockWithLocators tabulatedData -> Prop) :
  let n := len cs in let ws := bl_layout true cs in
  verifyType ["y"%char] zaid = Ok tt ->
  content (ad_v mtr) wm -> mt_NTR mtr = n -> content (bl_v sigd) ws -> bl_n sigd = n ->
  len wm + len ws < max_words -> 0 <= 1000 * z + a < 2 ^ 32 -> 0 <= z -> 0 <= a ->
  readable (fun v => mt_make v n) wm Sm ->
  readable (fun v => bl_make bm (sigd_gd bm) v (vbeg v + n) n true) ws Ss ->
  exists t, dt_of bm z a zaid mtr sigd = Ok t
    /\ dt_zaid t = zaid /\ d_xss (dt_data t) = wm ++ ws /\ data_wf (dt_data t)
    /\ dt_length bm (dt_data t) = Ok (len wm + len ws) /\ dt_ZA bm (dt_data t) = Ok (1000 * z + a) /\ dt_NTR bm (dt_data t) = Ok n
    /\ Sm (dt_mtr t) /\ Ss (dt_sig t).
Proof.
  intros n ws Ht Cm Nm Cs Ns B Hza Hz Ha Rm Rs.
  assert (Ln : 0 <= n < 2 ^ 31).
  { subst ws n. rewrite len_bl_layout in B. unfold max_words in B. pose proof (len_nonneg cs). pose proof (len_nonneg wm). pose proof (len_nonneg (concat cs)). lia. }
  pose proof (len_nonneg wm). pose proof (len_nonneg ws). unfold max_words in B.
  unfold dt_of. rewrite (xss_all_content _ _ Cm), (xss_all_content _ _ Cs). cbn [bind].
  unfold dos_generateData. rewrite Nm, Ns, Z.eqb_refl. cbn [negb throw_if bind].
  cbn [zeros repeat upd bind]. unfold dt_make. rewrite Ht. cbn [bind].
  unfold d_JXS, dt_NTR, d_NXS. cbn [d_jxs d_nxs].
  match goal with |- context [fetch bm ?l 3] => pose proof (fetch_in bm l 2 _ eq_refl ltac:(vm_compute; reflexivity)) as F3;
    pose proof (fetch_in bm l 5 _ eq_refl ltac:(vm_compute; reflexivity)) as F6; pose proof (fetch_in bm l 6 _ eq_refl ltac:(vm_compute; reflexivity)) as F7 end.
  match goal with |- context [fetch bm ?l 4] => pose proof (fetch_in bm l 3 _ eq_refl ltac:(vm_compute; reflexivity)) as G4;
    pose proof (fetch_in bm l 0 _ eq_refl ltac:(vm_compute; reflexivity)) as G1; pose proof (fetch_in bm l 1 _ eq_refl ltac:(vm_compute; reflexivity)) as G2 end.
  cbn [Z.of_nat Pos.of_succ_nat Pos.succ Z.add Pos.add] in F3, F6, F7, G4, G1, G2.
  rewrite F3, F6, F7, G4. cbn [bind]. rewrite (u32_small n) by lia.
  unfold tview. cbn [d_xss].
  assert (C1 : content (View (wm ++ ws) (1 - 1) (len wm + 1 - 1)) wm).
  { apply (piece_content [] wm ws); [cbn [app]; rewrite len_app; unfold max_words; lia|reflexivity|rewrite len_nil; lia]. }
  assert (C2 : content (View (wm ++ ws) (len wm + 1 - 1) (len (wm ++ ws))) ws).
  { pose proof (piece_content wm ws [] (len wm + 1 - 1) (len (wm ++ ws))) as P. rewrite app_nil_r in P.
    apply P; rewrite ?len_app; unfold max_words; lia. }
  destruct (Rm _ C1) as (m & Em & Smm). rewrite Em. cbn [bind].
  destruct (Rs _ C2) as (s & Es & Sss). cbn [vbeg] in Es.
  replace (len wm + n + 1 - 1) with (len wm + 1 - 1 + n) by lia. rewrite Es. cbn [bind].
  eexists. split; [reflexivity|]. cbn [dt_zaid dt_data dt_mtr dt_sig d_xss d_nxs].
  split; [reflexivity|]. split; [reflexivity|]. split; [repeat split|].
  unfold dt_length, dt_ZA, dt_NTR, d_NXS. cbn [d_nxs]. rewrite G1, G2, G4. cbn [bind].
  rewrite len_app, (u32_small (len wm + len ws)) by lia. split; [reflexivity|].
  split; [rewrite (u32_small (z * 1000)) by lia; rewrite !u32_small by (rewrite ?u32_small by lia; lia); do 2 f_equal; lia|].
  split; [rewrite u32_small by lia; reflexivity|]. split; assumption.
Qed.

Lemma dt_rejects_count bm z a zaid mtr sigd wm ws : content (ad_v mtr) wm -> content (bl_v sigd) ws -> mt_NTR mtr <> bl_n sigd ->
  dt_of bm z a zaid mtr sigd = Throw StdException.
Proof.
  intros Cm Cs N. unfold dt_of. rewrite (xss_all_content _ _ Cm), (xss_all_content _ _ Cs). cbn [bind]. unfold dos_generateData.
  destruct (Z.eqb_spec (mt_NTR mtr) (bl_n sigd)); [contradiction|]. reflexivity.
Qed.

Lemma verifyType_spec accepted s c : verifyType accepted (s ++ [c]) = if existsb (Ascii.eqb c) accepted then Ok tt else Throw StdException.
Proof. unfold verifyType. rewrite rev_unit. unfold throw_if. destruct (existsb _ _); reflexivity. Qed.
