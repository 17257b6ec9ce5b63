(** SecondaryParticleEnergyDistributionBlock (DLWH, DLWP) and
    EnergyDistributionBlock (DLW). *)
From Coq Require Import ZArith Bool List Lia.
From Coq Require Import ZifyBool ZifyNat.
From Verif Require Export MultiDist FrameBlock.
Import ListNotations.
Open Scope Z_scope.

(** * DLWH: code *)

(** src/ACEtk/continuous/SecondaryParticleEnergyDistributionBlock/src/generateData.hpp:1-92 *)
Definition dh_generateData bm (locator : Z) (v : view) : outcome en_obj :=
  if locator =? 0 then Ok Undefined else en_read bm locator v.

(** The loop of .../generateXSS.hpp:7-123 *)
Fixpoint dh_append bm (size : Z) (index : nat) (ds : list en_obj) (xss : list double) : outcome (list double) :=
  match ds with
  | [] => Ok xss
  | d :: r =>
      let offset := u64 (len xss - size + 1) in
      xss <- upd index (dbl offset) xss ;;
      w <- en_words bm d offset ;;
      dh_append bm size (S index) r (xss ++ w)
  end.
(** .../generateXSS.hpp:1-126 *)
Definition dh_generateXSS bm (ds : list en_obj) : outcome (list double) :=
  dh_append bm (len ds) 0 ds (repeat (dbl 0) (length ds)).

(** SecondaryParticleEnergyDistributionBlock.hpp:60-69 *)
Record dlwh := Dlwh { dh_block : blockWithLocators en_obj; dh_frames : list (option frame) }.

(** .../generateFrames.hpp:1-15: the first NR frames of TYRH (undefined if there are
    fewer), or none *)
Definition dh_generateFrames (t : option tyr) (nr : Z) : outcome (list (option frame)) :=
  match t with
  | Some t => if len (ty_frames t) <? nr then UB else Ok (map Some (firstn (Z.to_nat nr) (ty_frames t)))
  | None => Ok (repeat None (Z.to_nat nr))
  end.

(** .../ctor.hpp:62-67, 75-81 with src/ACEtk/base/BlockWithLocators/src/ctor.hpp:6-13 *)
Definition dh_of bm (ds : list en_obj) (frames : option (list frame)) : outcome dlwh :=
  l <- dh_generateXSS bm ds ;;
  let n := u32 (len ds) in
  data <- bl_generateBlocks bm (dh_generateData bm) (own l) n true n ;;
  t <- (match frames with Some f => t <- ty_of_frames bm f ;; Ok (Some t) | None => Ok None end) ;;
  fs <- dh_generateFrames t n ;;
  Ok (Dlwh (BlockWL (own l) n true n data) fs).

(** .../ctor.hpp:91-96, 107-113 *)
Definition dh_make bm (v : view) (data n : Z) (t : option tyr) : outcome dlwh :=
  o <- bl_make bm (dh_generateData bm) v data n true ;;
  fs <- dh_generateFrames t n ;; Ok (Dlwh o fs).

(** SecondaryParticleEnergyDistributionBlock.hpp:91-172 *)
Definition dh_NR (o : dlwh) : Z := bl_n (dh_block o).
Definition dh_LDLW bm (o : dlwh) (index : Z) : outcome Z := bl_LLOC bm (dh_block o) index.
Definition dh_distribution bm (o : dlwh) (index : Z) : outcome en_obj := bl_datum bm (dh_block o) index.
Definition dh_frame bm (o : dlwh) (index : Z) : outcome (option frame) :=
  _ <- check bm (bl_verify (dh_NR o) index) ;; at_ (dh_frames o) index.

(** * DLWH: specification *)

(** The frames a block shows: the given ones, or none for each distribution. *)
Definition opt_frames (n : nat) (fs : option (list frame)) : list (option frame) :=
  match fs with Some fs => map Some (firstn n fs) | None => repeat None n end.

Definition dh_shows bm (o : dlwh) (es : list en_in) (fs : list (option frame)) : Prop :=
  dh_NR o = len es /\ dh_frames o = fs
  /\ (forall k e, nth_error es k = Some e -> exists d, dh_distribution bm o (Z.of_nat k + 1) = Ok d /\ en_shows bm d e)
  /\ (forall k f, nth_error fs k = Some f -> dh_frame bm o (Z.of_nat k + 1) = Ok f)
  /\ (debug bm = true -> forall i, u64 i < 1 \/ len es < u64 i ->
        dh_distribution bm o i = Throw OutOfRange /\ dh_frame bm o i = Throw OutOfRange).

(** * Lemmas *)

Fixpoint pieces (b : Z) (gs : list (Z -> list double)) : list (list double) :=
  match gs with [] => [] | g :: r => g b :: pieces (b + len (g b)) r end.

Lemma length_pieces b gs : length (pieces b gs) = length gs.
Proof. revert b; induction gs as [|g r IH]; intros b; cbn; [reflexivity|]. rewrite IH. reflexivity. Qed.
Lemma len_pieces b gs : len (pieces b gs) = len gs.
Proof. unfold len. rewrite length_pieces. reflexivity. Qed.
Lemma pieces_split b gs pre c post : pieces b gs = pre ++ c :: post ->
  exists g1 g g2, gs = g1 ++ g :: g2 /\ length g1 = length pre /\ c = g (b + len (concat pre)).
Proof.
  revert b pre; induction gs as [|g r IH]; intros b pre E.
  - destruct pre; discriminate.
  - destruct pre as [|c0 pre]; cbn [pieces app] in E.
    + injection E as <- _. exists [], g, r. cbn. rewrite Z.add_0_r. auto.
    + injection E as <- E. destruct (IH _ _ E) as (g1 & g' & g2 & -> & L & ->).
      exists (g :: g1), g', g2. split; [reflexivity|]. split; [cbn; lia|]. cbn [concat]. rewrite len_app, Z.add_assoc. reflexivity.
Qed.

Lemma dh_append_ok bm size gs ds locs data :
  size = len locs + len ds ->
  Forall2 (fun g d => en_holds bm g d) gs ds ->
  1 + len data + len (concat (pieces (1 + len data) gs)) <= 2 ^ 31 ->
  dh_append bm size (length locs) ds (locs ++ repeat (dbl 0) (length ds) ++ data)
  = Ok (locs ++ map dbl (starts (1 + len data) (pieces (1 + len data) gs)) ++ data ++ concat (pieces (1 + len data) gs)).
Proof.
  intros Hs HF. revert locs data Hs. induction HF as [|g d gs ds Hd _ IH]; intros locs data Hs HL.
  - cbn. rewrite app_nil_r. reflexivity.
  - cbn [dh_append length repeat app pieces concat starts map] in *. rewrite len_app in HL.
    set (b := 1 + len data) in *. pose proof (len_nonneg data) as Nd. pose proof (len_nonneg (g b)) as Ng.
    pose proof (len_nonneg (concat (pieces (b + len (g b)) gs))) as Nc.
    assert (Ho : len (locs ++ dbl 0 :: repeat (dbl 0) (length ds) ++ data) - size + 1 = b).
    { rewrite len_app, len_cons, len_app, len_repeat. rewrite Hs, len_cons. unfold b. unfold len. lia. }
    rewrite Ho. rewrite u64_small by (unfold b; lia). rewrite upd_mid. cbn [bind].
    rewrite Hd by (split; unfold b in *; lia). cbn [bind].
    specialize (IH (locs ++ [dbl b]) (data ++ g b)).
    rewrite app_length in IH. cbn [length] in IH.
    replace (length locs + 1)%nat with (S (length locs)) in IH by lia.
    assert (Eb : 1 + len (data ++ g b) = b + len (g b)) by (rewrite len_app; unfold b; lia).
    rewrite Eb in IH.
    replace ((locs ++ dbl b :: repeat (dbl 0) (length ds) ++ data) ++ g b)
      with ((locs ++ [dbl b]) ++ repeat (dbl 0) (length ds) ++ data ++ g b) by las.
    rewrite IH; [f_equal; las| |lia]. rewrite Hs, len_app, len_cons. change (len [dbl b]) with 1. lia.
Qed.

Lemma dh_generate_ok bm gs ds :
  Forall2 (fun g d => en_holds bm g d) gs ds -> 1 + len (concat (pieces 1 gs)) <= 2 ^ 31 ->
  dh_generateXSS bm ds = Ok (bl_layout true (pieces 1 gs)).
Proof.
  intros HF HL. unfold dh_generateXSS.
  pose proof (dh_append_ok bm (len ds) gs ds [] [] eq_refl HF) as H. change (1 + len (@nil double)) with 1 in H.
  specialize (H HL). cbn [app length] in H. rewrite app_nil_r in H. rewrite H. reflexivity.
Qed.

(** The words of a list of distributions. *)
Lemma en_kinds srt es : eqb_sort_contract srt -> Forall (en_valid srt) es ->
  exists gs, Forall2 (en_kind srt) es gs /\ Forall2 (en_sized srt) es gs.
Proof.
  intros Hs HF. induction HF as [|e es He _ (gs & IH & IH')]; [exists []; split; constructor|].
  destruct (en_kind_exists srt e Hs He) as (g & Hg & Hg'). exists (g :: gs). split; constructor; assumption.
Qed.
Lemma pieces_size srt es gs ns b : Forall2 (en_sized srt) es gs -> Forall2 (en_size srt) es ns ->
  len (concat (pieces b gs)) = sumZ ns.
Proof.
  intros H. revert ns b. induction H as [|e g es gs Hg _ IH]; intros ns b H2; inversion H2; subst; [reflexivity|].
  cbn [pieces concat sumZ fold_right]. rewrite len_app, (Hg _ ltac:(eassumption)), (IH l'); [reflexivity|assumption].
Qed.
Lemma en_kinds_of bm srt es gs : Forall2 (en_kind srt) es gs ->
  exists ds, mapM (en_of bm srt) es = Ok ds /\ Forall2 (fun g d => en_holds bm g d) gs ds.
Proof.
  induction 1 as [|e g es gs (_ & Hof & _) _ (ds & M & F)]; [exists []; split; [reflexivity|constructor]|].
  destruct (Hof bm) as (o & Oo & Ho). exists (o :: ds). cbn [mapM]. rewrite Oo. cbn [bind]. rewrite M.
  split; [reflexivity|]. constructor; assumption.
Qed.

Lemma Forall2_pick {A B} (R : A -> B -> Prop) l r k a : Forall2 R l r -> nth_error l k = Some a -> exists b, nth_error r k = Some b /\ R a b.
Proof. intros H. revert k. induction H; intros [|k]; cbn; intros E; try discriminate; [injection E as <-; eauto|auto]. Qed.

Lemma bodies_in (b : Z) gs pre c post : pieces b gs = pre ++ c :: post ->
  len (concat pre) + len c <= len (concat (pieces b gs)).
Proof. intros ->. rewrite concat_app. cbn [concat]. rewrite !len_app. nonneg. lia. Qed.

(** Reading the blocks. *)
Lemma dh_blocks bm srt es gs v it :
  Forall2 (en_kind srt) es gs -> 1 + len (concat (pieces 1 gs)) <= 2 ^ 31 ->
  has v (bl_layout true (pieces 1 gs)) -> it = vbeg v + len es ->
  exists ds, bl_generateBlocks bm (dh_generateData bm) v (len es) true it = Ok ds /\ len ds = len es
    /\ (forall k e, nth_error es k = Some e -> exists d, nth_error ds k = Some d /\ en_shows bm d e)
    /\ (content v (bl_layout true (pieces 1 gs)) -> Forall2 (fun g d => en_holds bm g d) gs ds).
Proof.
  intros HF HL Hv Hit.
  assert (Ln : len (pieces 1 gs) = len es) by (rewrite len_pieces; unfold len; rewrite (Forall2_len _ _ _ HF); reflexivity).
  assert (Hgd : forall pre c post w, pieces 1 gs = pre ++ c :: post -> has w c ->
            exists d, dh_generateData bm (1 + len (concat pre)) w = Ok d
              /\ exists e g, nth_error es (length pre) = Some e /\ nth_error gs (length pre) = Some g
                 /\ en_shows bm d e /\ (content w c -> en_holds bm g d)).
  { intros pre c post w E Hw. destruct (pieces_split _ _ _ _ _ E) as (g1 & g & g2 & Eg & Lg & Ec).
    assert (Hg : nth_error gs (length pre) = Some g) by (rewrite Eg, <- Lg; apply nth_error_mid).
    destruct (Forall2_nth _ _ _ _ _ HF Hg) as (e & He & (Wg & _ & Rd)).
    pose proof (bodies_in _ _ _ _ _ E) as B. rewrite Ec in Hw, B. pose proof (len_nonneg (concat pre)) as Np.
    destruct (Rd bm (1 + len (concat pre)) w) as (o & Ro & So & Ho); [split; lia|exact Hw|].
    exists o. unfold dh_generateData. destruct (Z.eqb_spec (1 + len (concat pre)) 0); [lia|]. split; [exact Ro|].
    exists e, g. rewrite Ec. auto. }
  destruct (bl_has bm v true (pieces 1 gs) (dh_generateData bm)
    (fun k d => exists e, nth_error es k = Some e /\ en_shows bm d e) it Hv) as (ds & Gds & Lds & Rds).
  { rewrite Ln. exact Hit. }
  { intros pre c post w E Hw. destruct (Hgd pre c post w E Hw) as (d & Hd & e & g & He & Hg & S & _). exists d. split; [exact Hd|]. exists e. split; assumption. }
  rewrite Ln in Gds. exists ds. split; [exact Gds|].
  assert (Lds' : len ds = len es) by (unfold len in *; lia). split; [exact Lds'|]. split.
  - intros k e He. destruct (nth_error ds k) as [d|] eqn:Ed.
    + exists d. split; [reflexivity|]. destruct (Rds k d Ed) as (e' & He' & S). rewrite He in He'. injection He' as ->. exact S.
    + apply nth_error_None in Ed. pose proof (nth_error_len _ _ _ He). unfold len in *. lia.
  - intros Hc. destruct (bl_content bm v true (pieces 1 gs) (dh_generateData bm)
      (fun k d => exists g, nth_error gs k = Some g /\ en_holds bm g d) it Hc) as (ds' & Gds' & Lds'' & Rds').
    { rewrite Ln. exact Hit. }
    { intros pre c post w E Hw. destruct (Hgd pre c post w E (content_has _ _ Hw)) as (d & Hd & e & g & He & Hg & S & Hh). exists d. split; [exact Hd|]. exists g. split; [assumption|]. apply Hh, Hw. }
    rewrite Ln, Gds in Gds'. injection Gds' as <-. rewrite length_pieces in Lds''. clear - Rds' Lds''.
    revert ds Lds'' Rds'. induction gs as [|g gs IH]; intros [|d ds] L R; try discriminate; constructor.
    + destruct (R 0%nat d eq_refl) as (g' & E & H). cbn in E. injection E as ->. exact H.
    + apply IH; [cbn in L; lia|]. intros k d' Hd'. apply (R (S k)). exact Hd'.
Qed.

Lemma opt_frames_len n fs : (match fs with Some f => (n <= length f)%nat | None => True end) -> length (opt_frames n fs) = n.
Proof. destruct fs; cbn; intros; [rewrite map_length, firstn_length; lia|apply repeat_length]. Qed.

Lemma dh_shows_ok bm v it es ds fs :
  len ds = len es -> len es < 2 ^ 31 -> length fs = length es ->
  (forall k e, nth_error es k = Some e -> exists d, nth_error ds k = Some d /\ en_shows bm d e) ->
  dh_shows bm (Dlwh (BlockWL v (len es) true it ds) fs) es fs.
Proof.
  intros Hd Hb Hf He. split; [reflexivity|]. split; [reflexivity|]. split; [|split].
  - intros k e Hk. destruct (He k e Hk) as (d & Hd' & S). exists d. split; [|exact S].
    unfold dh_distribution. cbn [dh_block]. apply (bl_datum_has bm v (len es) true it ds k d); auto.
  - intros k f Hk. unfold dh_frame, dh_NR. cbn [dh_block bl_n dh_frames]. pose proof (nth_error_len _ _ _ Hk) as B.
    unfold bl_verify. assert (B' : Z.of_nat k < len es) by (unfold len in *; lia). rewrite u64_small by lia. rewrite check_verifyIndex by lia. cbn [bind].
    apply (at_has _ k); [exact Hk|reflexivity|]. unfold len in *. lia.
  - intros D i Hi. destruct bm; [|discriminate]. split.
    + unfold dh_distribution. cbn [dh_block]. apply bl_datum_oob. exact Hi.
    + unfold dh_frame, dh_NR, bl_verify, check, verifyIndex, throw_if. cbn [dh_block bl_n debug].
      destruct ((u64 i <? 1) || (len es <? u64 i)) eqn:E; [reflexivity|lia].
Qed.

(** Building a DLWH block and reading its words. *)
Lemma dh_round_trip srt es :
  eqb_sort_contract srt -> Forall (en_valid srt) es ->
  exists gs, Forall2 (en_sized srt) es gs
  /\ forall bm fs, 1 + len (concat (pieces 1 gs)) <= 2 ^ 31 -> len es + len (concat (pieces 1 gs)) < 2 ^ 31 ->
     match fs with Some f => (length es <= length f)%nat /\ len f < 2 ^ 31 | None => True end ->
     exists ds o, mapM (en_of bm srt) es = Ok ds /\ dh_of bm ds fs = Ok o
       /\ content (bl_v (dh_block o)) (bl_layout true (pieces 1 gs))
       /\ dh_shows bm o es (opt_frames (length es) fs)
       /\ forall bm' v t, has v (bl_layout true (pieces 1 gs)) ->
            match fs, t with
            | Some f, Some t => ty_frames t = f
            | None, None => True
            | _, _ => False
            end ->
            exists o', dh_make bm' v (vbeg v + len es) (len es) t = Ok o'
              /\ bl_v (dh_block o') = v
              /\ dh_shows bm' o' es (opt_frames (length es) fs).
Proof.
  intros Hsrt HV. destruct (en_kinds srt es Hsrt HV) as (gs & HK & HZ). exists gs. split; [exact HZ|].
  intros bm fs HL HL2 Hfs. destruct (en_kinds_of bm srt es gs HK) as (ds & M & Hds).
  assert (Lds : len ds = len es) by (unfold len; rewrite (Forall2_len _ _ _ HK), (Forall2_len _ _ _ Hds); reflexivity).
  pose proof (len_nonneg es) as Ne. pose proof (len_nonneg (concat (pieces 1 gs))) as Nc.
  assert (Ln : len (pieces 1 gs) = len es) by (rewrite len_pieces; unfold len; rewrite (Forall2_len _ _ _ HK); reflexivity).
  assert (C : content (own (bl_layout true (pieces 1 gs))) (bl_layout true (pieces 1 gs))).
  { apply own_content. rewrite len_bl_layout. unfold max_words. lia. }
  destruct (dh_blocks bm srt es gs _ (len es) HK HL (content_has _ _ C)) as (data & Gd & Ld & Sd & _); [reflexivity|].
  assert (Lf : length (opt_frames (length es) fs) = length es) by (apply opt_frames_len; destruct fs; tauto).
  exists ds. eexists. split; [exact M|]. split; [|split; [|split]].
  - unfold dh_of. rewrite (dh_generate_ok bm gs ds Hds HL). cbn [bind]. rewrite Lds. rewrite (u32_small (len es)) by lia. rewrite Gd. cbn [bind].
    assert (Hf : (t <- (match fs with Some f => t <- ty_of_frames bm f ;; Ok (Some t) | None => Ok None end) ;; dh_generateFrames t (len es)) = Ok (opt_frames (length es) fs)).
    { destruct fs as [f|]; cbn [bind].
      - destruct Hfs as [H1 H2]. destruct (ty_of_frames_ok bm f) as (t & -> & _ & (_ & Et & _)); [unfold max_words; lia|].
        cbn [bind dh_generateFrames]. rewrite Et. destruct (Z.ltb_spec (len f) (len es)); [unfold len in *; lia|].
        unfold opt_frames. replace (Z.to_nat (len es)) with (length es) by (unfold len; lia). reflexivity.
      - cbn [dh_generateFrames]. replace (Z.to_nat (len es)) with (length es) by (unfold len; lia). reflexivity. }
    destruct (match fs with Some f => t <- ty_of_frames bm f ;; Ok (Some t) | None => Ok None end) as [t| |]; try discriminate Hf.
    cbn [bind] in Hf |- *. rewrite Hf. cbn [bind]. reflexivity.
  - exact C.
  - apply dh_shows_ok; auto; lia.
  - intros bm' v t Hv Ht.
    destruct (dh_blocks bm' srt es gs v (vbeg v + len es) HK HL Hv eq_refl) as (data' & Gd' & Ld' & Sd' & _).
    assert (Hf : dh_generateFrames t (len es) = Ok (opt_frames (length es) fs)).
    { destruct fs as [f|], t as [t|]; try contradiction; cbn [dh_generateFrames].
      - destruct Hfs as [H1 H2]. rewrite Ht. destruct (Z.ltb_spec (len f) (len es)); [unfold len in *; lia|].
        unfold opt_frames. replace (Z.to_nat (len es)) with (length es) by (unfold len; lia). reflexivity.
      - unfold opt_frames. replace (Z.to_nat (len es)) with (length es) by (unfold len; lia). reflexivity. }
    eexists. split; [|split].
    + unfold dh_make, bl_make. replace (vbeg v + len es - vbeg v) with (len es) by lia. rewrite s64_small by lia.
      destruct (Z.ltb_spec (len es) (len es)); [lia|]. cbn [throw_if bind]. rewrite Gd'. cbn [bind]. rewrite Hf. cbn [bind]. reflexivity.
    + reflexivity.
    + apply dh_shows_ok; auto; lia.
Qed.
