(** Property theorems C14, C15 and C16: law numbers, energy distribution blocks,
    reference frames and multiplicities. *)
From Coq Require Import ZArith Bool List Lia Permutation Sorted.
From Coq Require Import ZifyBool ZifyNat.
From Verif Require Export DlwBlock PropsDist.
Import ListNotations.
Open Scope Z_scope.

(** A sorting function (only used by law 1); the identity is enough for the examples
    without law 1. *)
Definition no_sort (l : list eqb_in) : list eqb_in := l.
Definition ex_level : ed_in := ILevel (dbl 1) (dbl 2) (dbl 3) (dbl 4).
Definition ex_angle_energy : ed_in :=
  IAngleEnergy [] [] [AE (dbl 1) 2 5 [C13_e1]; AE (dbl 2) 2 1 [C13_e1; C13_e2]] 11.
Definition ex_prob : pr_in := PrIn [] [] [dbl 1; dbl 5] [dbl 1; dbl 1].
Definition ex_multi : en_in := IMulti [(ex_prob, ILevel (dbl 1) (dbl 5) (dbl 3) (dbl 4));
  (ex_prob, IOutgoing [] [] [C13_e1; C13_e2] 1)] 1.

(** ** C14 *)

(** The LAW reported by an object is the law of the distribution it was built from. *)
Theorem C14_law_number_partial : forall bm srt i o,
  ed_of bm srt i = Ok o -> ~ is67 i -> ed_LAW o = law_of i.
Proof.
  intros bm srt i o H Hn. rewrite <- law_67 in Hn. pose proof (ed_of_tag _ _ _ _ H) as T. rewrite ed_LAW_tag; congruence.
Qed.
Print Assumptions C14_law_number_partial.

(** The excluded kind, AngleEnergyDistributionData (law 67), reports 61 (for every object),
    and a block built from it cannot be read back. *)
Theorem C14_law_number_refuted :
  (forall bm srt nbt int ds locb o, ed_of bm srt (IAngleEnergy nbt int ds locb) = Ok o -> ed_LAW o = 61)
  /\ exists o, ed_of Debug no_sort ex_angle_energy = Ok o
       /\ law_of ex_angle_energy = 67 /\ ed_LAW o = 61
       /\ dh_of Debug [Single o] None = Throw StdException.
Proof.
  split.
  - intros bm srt nbt int ds locb o H. pose proof (ed_of_tag _ _ _ _ H) as T. destruct o; try discriminate. reflexivity.
  - eexists. conc.
Qed.
Print Assumptions C14_law_number_refuted.

(** The law read from a block selects the kind: a distribution read back shows the data of [i]
    only if it is the same alternative. *)
Theorem C14_same_kind : forall bm b l o i bm' srt o', ed_shows bm b l o i -> ed_of bm' srt i = Ok o' -> ed_tag o = ed_tag o'.
Proof. intros bm b l o i bm' srt o' H1 H2. rewrite (ed_of_tag _ _ _ _ H2). exact (ed_shows_tag _ _ _ _ _ H1). Qed.
Print Assumptions C14_same_kind.

Example C14_example : exists o, ed_of Debug no_sort ex_level = Ok o /\ ed_LAW o = 3.
Proof. eexists. conc. Qed.

(** ** C15 *)

(** DLWH and DLWP.  [es] are the distributions the user supplies, each with [n] words
    ([en_size]); reading any view that starts with the words of the block, in any build
    mode, gives the distributions and frames supplied.  Partial: [en_valid] excludes
    distributions of law 67, and multi-law distributions with one law, with laws 61 and 67, or
    whose own energy limits differ from those of the probabilities; UndefinedDistribution
    is not covered. *)
Theorem C15_secondary_particle_round_trip_partial : forall srt es ns bm fs,
  eqb_sort_contract srt -> Forall (en_valid srt) es -> Forall2 (en_size srt) es ns ->
  len es + sumZ ns < 2 ^ 31 ->
  match fs with Some f => (length es <= length f)%nat /\ len f < 2 ^ 31 | None => True end ->
  exists ds o l, mapM (en_of bm srt) es = Ok ds /\ dh_of bm ds fs = Ok o
    /\ content (bl_v (dh_block o)) l /\ len l = len es + sumZ ns
    /\ dh_shows bm o es (opt_frames (length es) fs)
    /\ forall bm' v t, has v l ->
         match fs, t with
         | Some f, Some t => ty_frames t = f
         | None, None => True
         | _, _ => False
         end ->
         exists o', dh_make bm' v (vbeg v + len es) (len es) t = Ok o'
           /\ bl_v (dh_block o') = v
           /\ dh_shows bm' o' es (opt_frames (length es) fs).
Proof.
  intros srt es ns bm fs Hs HV HN HL Hfs. destruct (dh_round_trip srt es Hs HV) as (gs & HZ & H).
  pose proof (pieces_size srt es gs ns 1 HZ HN) as E. specialize (H bm fs). rewrite E in H. pose proof (len_nonneg es).
  assert (B : 1 + sumZ ns <= 2 ^ 31) by (destruct HN; [cbn; lia|rewrite len_cons in *; nonneg; lia]).
  destruct (H B HL Hfs) as (ds & o & M & O & C & S & R).
  exists ds, o, (bl_layout true (pieces 1 gs)). rewrite len_bl_layout, len_pieces, E.
  replace (len gs) with (len es) by (unfold len; rewrite (Forall2_len _ _ _ HZ); reflexivity).
  repeat (split; [assumption||reflexivity|]). exact R.
Qed.
Print Assumptions C15_secondary_particle_round_trip_partial.

(** DLW with its TYR block.  [is] pairs multiplicity and distribution of each reaction.
    Partial: as above, and integer multiplicities are below 100 (and not zero in the centre
    of mass frame). *)
Theorem C15_energy_block_round_trip_partial : forall srt is ns bm fs,
  eqb_sort_contract srt -> Forall (fun i => mult_valid (fst i) /\ en_valid srt (snd i)) is ->
  Forall2 (ent_size srt) is ns ->
  len is + sumZ ns < 2 ^ 31 -> 101 + sumZ ns < 2 ^ 31 ->
  Forall2 (fun f m => f = CentreOfMass -> m <> MNum 0) fs (map fst is) ->
  exists ds ms o l lt, mapM (en_of bm srt) (map snd is) = Ok ds /\ mapM (mult_of bm) (map fst is) = Ok ms
    /\ dl_of bm ds ms fs = Ok o
    /\ content (dl_v o) l /\ len l = len is + sumZ ns
    /\ content (ty_v (dl_tyr o)) lt /\ len lt = len is
    /\ dl_shows bm o (map snd is) (map fst is) fs
    /\ forall bm' v vt, has v l -> has vt lt ->
         exists t o', ty_make bm' vt (len is) = Ok t
           /\ dl_make bm' v (vbeg v + len is) t (len is) = Ok o'
           /\ dl_v o' = v /\ dl_tyr o' = t
           /\ dl_shows bm' o' (map snd is) (map fst is) fs.
Proof.
  intros srt is ns bm fs Hs HV HN HL HL' Hfs. destruct (dl_round_trip srt is Hs HV) as (es & HZ & H).
  pose proof (dl_words_size srt is es ns 1 HZ HN) as E. specialize (H bm fs). rewrite E in H.
  assert (El : len es = len is) by (unfold len; rewrite (Forall2_len _ _ _ HZ); reflexivity). rewrite El in H.
  destruct (H HL' HL Hfs) as (ds & ms & o & lt & M1 & M2 & O & C & Ct & Lt & S & R).
  exists ds, ms, o, (dl_layout es), lt. rewrite len_dl_layout, El, E. repeat (split; [assumption||reflexivity|]). exact R.
Qed.
Print Assumptions C15_energy_block_round_trip_partial.

(** The excluded cases fail.  In order: law 67 in a block; UndefinedDistribution in a block;
    a multi-law distribution with one law comes back as that law alone; energy limits of a law are
    replaced; laws 61 (in a multi-law distribution, at the locator base the user gave) cannot be
    built; an empty multi-law distribution; integer multiplicities of 100 and more; zero
    multiplicity in the centre of mass frame. *)
Definition block_of bm (es : list en_in) : outcome en_obj :=
  ds <- mapM (en_of bm no_sort) es ;; o <- dh_of bm ds None ;; dh_distribution bm o 1.
Definition dlw_of bm (es : list en_in) (ms : list mult_in) (fs : list frame) : outcome dlw :=
  ds <- mapM (en_of bm no_sort) es ;; ms <- mapM (mult_of bm) ms ;; dl_of bm ds ms fs.
Theorem C15_round_trip_refuted :
  block_of Debug [ISingle ex_angle_energy] = Throw StdException
  /\ (forall bm, dh_of bm [Undefined] None = UB)
  /\ (exists o, block_of Debug [IMulti [(ex_prob, ex_level)] 1] = Ok (Single o))
  /\ (exists m d, block_of Debug [IMulti [(ex_prob, ex_level); (ex_prob, ex_level)] 1] = Ok (Multi m)
        /\ mu_distribution Debug m 1 = Ok d /\ ed_emax Debug d = Ok (dbl 5)
        /\ ed_limits ex_level = Some (dbl 1, dbl 2))
  /\ (forall bm, en_of bm no_sort (IMulti [(ex_prob, IEnergyAngle [] [] [EA (dbl 1) 2 5 [TW (dbl 1) dhalf (dbl 1) 2 [dbl 0; dbl 1] [dhalf; dhalf] [dbl 0; dbl 1]]] 9);
                                          (ex_prob, ex_level)] 1) = Throw StdException)
  /\ en_of Debug no_sort (IMulti [] 1) = Throw OutOfRange
  /\ (forall bm, dlw_of bm [ISingle ex_level; ISingle ex_level] [MNum 1; MNum 100] [Laboratory; Laboratory] = Throw StdException)
  /\ (exists o, dlw_of Debug [ISingle ex_level] [MNum 0] [CentreOfMass] = Ok o /\ dl_frame Debug o 1 = Ok Laboratory).
Proof.
  split; [vm_compute; reflexivity|]. split; [intros []; vm_compute; reflexivity|]. split; [eexists; vm_compute; reflexivity|].
  split; [do 2 eexists; conc|]. split; [intros []; vm_compute; reflexivity|]. split; [vm_compute; reflexivity|].
  split; [intros []; vm_compute; reflexivity|]. eexists. conc.
Qed.
Print Assumptions C15_round_trip_refuted.

(** Index out of range throws in Debug (for every block read or built), and different numbers of
    distributions, multiplicities and frames are rejected. *)
Theorem C15_sizes_rejected : forall bm ds ms fs,
  (len ds <> len ms -> dl_of bm ds ms fs = Throw StdException)
  /\ (forall l ty, dl_generateXSS bm ds ms = Ok (l, ty) -> len fs <> len ty -> dl_of bm ds ms fs = Throw StdException).
Proof.
  intros bm ds ms fs. split.
  - intros H. unfold dl_of, dl_generateXSS. replace (len ds =? len ms) with false by lia. reflexivity.
  - intros l ty H Hf. unfold dl_of. rewrite H. cbn [bind snd]. unfold ty_of, ty_generateXSS. replace (len fs =? len ty) with false by lia. reflexivity.
Qed.
Print Assumptions C15_sizes_rejected.

Example C15_valid : en_valid no_sort ex_multi /\ en_valid no_sort (ISingle ex_level)
  /\ en_size no_sort (ISingle ex_level) 11 /\ mult_valid (MTab [] [] [dbl 1; dbl 2] [dbl 3; dbl 4]).
Proof.
  assert (T1 : tq_valid C13_e1 /\ tq_valid C13_e2).
  { unfold tq_valid. cbn [tq_interp tq_discrete C13_e1 C13_e2].
    repeat split; try lia; (eexists; split; [vm_compute; reflexivity|vm_compute; discriminate]). }
  assert (V1 : ed_valid no_sort (ILevel (dbl 1) (dbl 5) (dbl 3) (dbl 4))).
  { split; [exact I|]. exists Debug. eexists. split; [reflexivity|]. split; vm_compute; discriminate. }
  assert (V2 : ed_valid no_sort (IOutgoing [] [] [C13_e1; C13_e2] 1)).
  { split. { cbn [ed_args]. split; [repeat constructor; apply T1|]. repeat split; try constructor; discriminate. }
    exists Debug. eexists. split; [vm_compute; reflexivity|]. split; vm_compute; discriminate. }
  assert (P : pr_valid ex_prob).
  { split; [discriminate|]. eexists. split; [vm_compute; reflexivity|vm_compute; reflexivity]. }
  split; [|split; [|split]].
  - split; [vm_compute; discriminate|]. split; [|split; [vm_compute; discriminate|]].
    + repeat (apply Forall_cons || apply Forall_nil); (split; [exact P|]; split; [assumption|]; split; [intros []|]; split; [intros []|reflexivity]).
    + unfold mu_fits. refine (ex_intro _ [(_, _); (_, _)] _). split.
      * constructor; [split; [cbn [fst]; vm_compute; reflexivity|exists Debug; cbn [snd]; vm_compute; reflexivity]|].
        constructor; [split; [cbn [fst]; vm_compute; reflexivity|exists Debug; cbn [snd]; vm_compute; reflexivity]|]. constructor.
      * vm_compute. discriminate.
  - split; [|intros []]. split; [exact I|]. exists Debug. eexists. split; [reflexivity|]. split; vm_compute; discriminate.
  - exists Debug. eexists. split; [reflexivity|]. reflexivity.
  - split; reflexivity.
Qed.
Example C15_example : exists o m d e mu,
  dlw_of Debug [ex_multi; ISingle ex_level; ISingle ex_level] [MNum 2; MTab [] [] [dbl 1; dbl 2] [dbl 3; dbl 4]; MNum 1]
      [CentreOfMass; Laboratory; CentreOfMass] = Ok o
  /\ dl_distribution Debug o 1 = Ok (Multi m) /\ mu_distribution Debug m 2 = Ok d /\ ed_tag d = 4
  /\ dl_distribution Debug o 2 = Ok (Single e) /\ ed_emin Debug e = Ok (dbl 1)
  /\ dl_multiplicity Debug o 2 = Ok (MuTab mu) /\ td_y Debug mu = Ok [dbl 3; dbl 4]
  /\ dl_frame Debug o 3 = Ok CentreOfMass /\ dl_distribution Debug o 4 = Throw OutOfRange.
Proof. do 5 eexists. conc. Qed.

(** ** C16 *)

(** TYR and TYRH: reading any view that starts with the words written gives the frames and
    multiplicities.  Partial: [ty_ok] excludes multiplicity 0 in the centre of mass frame. *)
Theorem C16_frame_and_multiplicity_partial : forall bm v frames ms l,
  Forall2 ty_ok frames ms -> ty_generateXSS frames ms = Ok l -> has v l ->
  (exists o, ty_make bm v (len frames) = Ok o /\ ty_v o = v /\ ty_shows bm o frames ms)
  /\ (len l < max_words -> exists o, ty_of bm frames ms = Ok o /\ content (ty_v o) l /\ ty_shows bm o frames ms).
Proof. exact ty_round_trip. Qed.
Print Assumptions C16_frame_and_multiplicity_partial.

Theorem C16_sizes : forall frames ms,
  (len frames <> len ms -> forall bm, ty_of bm frames ms = Throw StdException)
  /\ (len frames = len ms -> exists l, ty_generateXSS frames ms = Ok l /\ len l = len frames).
Proof.
  intros frames ms. split.
  - intros H bm. unfold ty_of, ty_generateXSS. replace (len frames =? len ms) with false by lia. reflexivity.
  - intros H. exists (ty_signs frames ms). unfold ty_generateXSS. replace (len frames =? len ms) with true by lia. split; [reflexivity|].
    revert ms H. induction frames as [|f frames IH]; intros [|m ms] H; rewrite ?len_nil, ?len_cons in *; nonneg; try lia; cbn [ty_signs].
    + reflexivity.
    + rewrite len_cons, IH; lia.
Qed.
Print Assumptions C16_sizes.

(** Frames alone (TYRH): multiplicity one for every reaction. *)
Theorem C16_frames_only : forall bm frames, len frames < max_words ->
  exists o, ty_of_frames bm frames = Ok o /\ ty_shows bm o frames (repeat 1 (length frames)).
Proof. intros bm frames H. destruct (ty_of_frames_ok bm frames H) as (o & A & _ & B). eauto. Qed.
Print Assumptions C16_frames_only.

(** The excluded case: the frame is lost (the multiplicity is not). *)
Theorem C16_frame_lost_refuted : exists o, forall bm,
  ty_of bm [CentreOfMass] [0] = Ok o /\ ty_frame bm o 1 = Ok Laboratory /\ ty_mult bm o 1 = Ok 0.
Proof. eexists. intros []; conc. Qed.
Print Assumptions C16_frame_lost_refuted.

(** Everything the constructor takes (multiplicities are unsigned int), with nothing left open: the
    multiplicity is the one supplied, and so is the frame unless the multiplicity is zero (then it is
    the laboratory frame); multiplicities that do not fit an int are undefined behaviour. *)
Definition frame_read (f : frame) (m : Z) : frame := if m =? 0 then Laboratory else f.
Fixpoint frames_read (frames : list frame) (ms : list Z) : list frame :=
  match frames, ms with f :: frames, m :: ms => frame_read f m :: frames_read frames ms | _, _ => [] end.

Definition ty_signed (f : frame) (m : Z) : double := if is_cm f then SFopp (dbl m) else dbl m.

Lemma ty_signed_read f m : 0 <= m < 2 ^ 31 ->
  to_int (ty_signed f m) = Ok (ty_word f m) /\ SFltb (ty_signed f m) (dbl 0) = is_cm (frame_read f m).
Proof.
  intros H. unfold ty_signed, ty_word, frame_read. destruct f; cbn [is_cm].
  - split; [apply to_int_dbl; lia|]. rewrite dbl_ltb_0 by lia. destruct (m =? 0); cbn; lia.
  - destruct (Z.eqb_spec m 0) as [->|N]; [split; reflexivity|]. rewrite dbl_opp by exact N. split; [apply to_int_dbl; lia|]. rewrite dbl_ltb_0 by lia. cbn. lia.
Qed.

Lemma ty_every_at bm v frames ms pre : len frames = len ms -> Forall (fun m => 0 <= m < 2 ^ 31) ms ->
  has v (pre ++ ty_signs frames ms) ->
  mapM (fun index => x <- xss bm v index ;; n <- ixss bm v index ;; m <- abs_int n ;;
          Ok (if SFltb x (dbl 0) then CentreOfMass else Laboratory, u32 m)) (seqZ (len pre + 1) (length frames))
  = Ok (combine (frames_read frames ms) ms).
Proof.
  revert ms pre. induction frames as [|f frames IH]; intros [|m ms] pre Hl Hm Hv; rewrite ?len_nil, ?len_cons in Hl; nonneg; try lia; [reflexivity|].
  inversion Hm as [|? ? Hm1 Hm2]; subst. cbn [length seqZ mapM combine frames_read ty_signs] in *.
  change (if is_cm f then SFopp (dbl m) else dbl m) with (ty_signed f m) in Hv. destruct (ty_signed_read f m Hm1) as [E1 E2].
  unfold ixss. rewrite (xss_at bm v pre _ _ _ Hv eq_refl). cbn [bind]. rewrite E1. cbn [bind].
  assert (Hw : - 2 ^ 31 < ty_word f m < 2 ^ 31) by (unfold ty_word; destruct (is_cm f); lia).
  assert (Ha : abs_int (ty_word f m) = Ok (Z.abs (ty_word f m))) by (unfold abs_int; destruct (Z.eqb_spec (ty_word f m) (- 2 ^ 31)); [lia|reflexivity]).
  rewrite Ha. cbn [bind]. rewrite E2.
  specialize (IH ms (pre ++ [ty_signed f m])). rewrite len_app in IH. change (len [ty_signed f m]) with 1 in IH. unfold ixss in IH.
  rewrite IH; [|lia|exact Hm2|apply (has_eq _ _ _ Hv); las]. cbn [bind]. f_equal. f_equal. f_equal.
  - unfold frame_read. destruct (m =? 0), f; reflexivity.
  - unfold ty_word. destruct (is_cm f); rewrite u32_small by lia; lia.
Qed.

Lemma ty_signs_len frames ms : len frames = len ms -> len (ty_signs frames ms) = len frames /\ length (frames_read frames ms) = length frames.
Proof.
  revert ms. induction frames as [|f frames IH]; intros [|m ms] H; rewrite ?len_nil, ?len_cons in H; nonneg; try lia; [split; reflexivity|].
  cbn [ty_signs frames_read length]. rewrite !len_cons. destruct (IH ms ltac:(lia)) as [-> ->]. split; reflexivity.
Qed.

Lemma ty_shows_intro bm v frames ms : len frames < max_words -> len frames = len ms -> ty_shows bm (Tyr v (len frames) frames ms) frames ms.
Proof.
  intros B L. unfold max_words in B. unfold ty_shows, ty_NTR, ty_frame, ty_mult. cbn [ty_ntr ty_frames ty_mults].
  split; [reflexivity|]. split; [reflexivity|]. split; [reflexivity|]. split; [|split].
  - intros k f Hk. pose proof (nth_error_len _ _ _ Hk) as Bk. unfold len in Bk, B, L. rewrite u64_small by lia. rewrite check_verifyIndex by (unfold len; lia).
    cbn [bind]. apply (at_has _ k); [exact Hk|reflexivity|unfold len; lia].
  - intros k m Hk. pose proof (nth_error_len _ _ _ Hk) as Bk. unfold len in Bk, B, L. rewrite u64_small by lia. rewrite check_verifyIndex by (unfold len; lia).
    cbn [bind]. apply (at_has _ k); [exact Hk|reflexivity|unfold len; lia].
  - intros Hd i Hi. unfold check, verifyIndex, throw_if. rewrite Hd.
    destruct ((u64 i <? 1) || (len frames <? u64 i)) eqn:E; [split; reflexivity|lia].
Qed.

Lemma ty_big_word f m : 2 ^ 31 <= m < 2 ^ 32 -> (n <- to_int (ty_signed f m) ;; abs_int n) = UB.
Proof.
  intros H. unfold to_int. assert (E : sf_round (ty_signed f m) = Some (ty_word f m)).
  { unfold ty_signed, ty_word. destruct (is_cm f); [rewrite dbl_opp by lia|]; apply sf_round_dbl; lia. }
  rewrite E. unfold in_int, ty_word. destruct (is_cm f).
  - destruct (Z.eq_dec m (2 ^ 31)) as [->|N]; [reflexivity|]. match goal with |- context [if ?b then Ok _ else UB] => replace b with false by lia end. reflexivity.
  - match goal with |- context [if ?b then Ok _ else UB] => replace b with false by lia end. reflexivity.
Qed.

Lemma ty_big_at bm v frames ms pre : len frames = len ms -> Forall (fun m => 0 <= m < 2 ^ 32) ms -> Exists (fun m => 2 ^ 31 <= m) ms ->
  has v (pre ++ ty_signs frames ms) ->
  mapM (fun index => x <- xss bm v index ;; n <- ixss bm v index ;; m <- abs_int n ;;
          Ok (if SFltb x (dbl 0) then CentreOfMass else Laboratory, u32 m)) (seqZ (len pre + 1) (length frames))
  = UB.
Proof.
  revert ms pre. induction frames as [|f frames IH]; intros [|m ms] pre Hl Hm He Hv; rewrite ?len_nil, ?len_cons in Hl; nonneg; try lia; [inversion He|].
  inversion Hm as [|? ? Hm1 Hm2]; subst. cbn [length seqZ mapM ty_signs] in *.
  change (if is_cm f then SFopp (dbl m) else dbl m) with (ty_signed f m) in Hv.
  unfold ixss at 1. rewrite (xss_at bm v pre _ _ _ Hv eq_refl). cbn [bind]. destruct (Z.lt_ge_cases m (2 ^ 31)) as [S|S].
  - destruct (ty_signed_read f m ltac:(lia)) as [E1 E2]. rewrite E1. cbn [bind].
    assert (Hw : - 2 ^ 31 < ty_word f m < 2 ^ 31) by (unfold ty_word; destruct (is_cm f); lia).
    assert (Ha : abs_int (ty_word f m) = Ok (Z.abs (ty_word f m))) by (unfold abs_int; destruct (Z.eqb_spec (ty_word f m) (- 2 ^ 31)); [lia|reflexivity]).
    rewrite Ha. cbn [bind]. specialize (IH ms (pre ++ [ty_signed f m])). rewrite len_app in IH. change (len [ty_signed f m]) with 1 in IH.
    rewrite IH; [reflexivity|lia|exact Hm2| |apply (has_eq _ _ _ Hv); las]. inversion He; subst; [lia|assumption].
  - pose proof (ty_big_word f m ltac:(lia)) as E. destruct (to_int (ty_signed f m)); cbn [bind] in E |- *; try congruence. rewrite E. reflexivity.
Qed.

Theorem C16_every_multiplicity : forall bm v frames ms l,
  Forall (fun m => 0 <= m < 2 ^ 32) ms -> ty_generateXSS frames ms = Ok l -> has v l -> len l < max_words ->
  (Forall (fun m => m < 2 ^ 31) ms ->
     (exists o, ty_of bm frames ms = Ok o /\ content (ty_v o) l /\ ty_shows bm o (frames_read frames ms) ms)
     /\ exists o, ty_make bm v (len frames) = Ok o /\ ty_v o = v /\ ty_shows bm o (frames_read frames ms) ms)
  /\ (Exists (fun m => 2 ^ 31 <= m) ms -> ty_of bm frames ms = UB /\ ty_make bm v (len frames) = UB).
Proof.
  intros bm v frames ms l Hm G Hv B. pose proof G as G0. unfold ty_generateXSS, throw_if in G. destruct (Z.eqb_spec (len frames) (len ms)) as [L|]; [|discriminate G]. cbn [negb bind] in G. apply Ok_inj in G. subst l.
  destruct (ty_signs_len frames ms L) as [L1 L2]. pose proof (own_content _ B) as C. rewrite L1 in B.
  assert (N : Z.to_nat (len frames) = length frames) by (unfold len; lia).
  split.
  - intros H31. assert (Hs : Forall (fun m => 0 <= m < 2 ^ 31) ms). { rewrite Forall_forall in *. intros x Hx. specialize (Hm x Hx). specialize (H31 x Hx). cbn beta in *. lia. }
    assert (L3 : length (frames_read frames ms) = length ms) by (unfold len in L; lia). destruct (combine_fst _ _ L3) as [F1 F2].
    assert (L4 : len frames = len (frames_read frames ms)) by (unfold len; lia).
    split.
    + unfold ty_of. rewrite G0. cbn [bind]. unfold ty_generateBlocks. rewrite N. pose proof (ty_every_at bm (own (ty_signs frames ms)) frames ms [] L Hs (content_has _ _ C)) as M. change (len (@nil double) + 1) with 1 in M. rewrite M. cbn [bind].
      eexists. split; [reflexivity|]. cbn [ty_v]. split; [exact C|]. rewrite F1, F2, L4. apply ty_shows_intro; [rewrite <- L4; exact B|unfold len; lia].
    + unfold ty_make. rewrite (verify_at_least_has _ _ _ Hv) by lia. cbn [bind]. unfold ty_generateBlocks. rewrite N. pose proof (ty_every_at bm v frames ms [] L Hs Hv) as M. change (len (@nil double) + 1) with 1 in M. rewrite M. cbn [bind].
      eexists. split; [reflexivity|]. cbn [ty_v]. split; [reflexivity|]. rewrite F1, F2, L4. apply ty_shows_intro; [rewrite <- L4; exact B|unfold len; lia].
  - intros He. split.
    + unfold ty_of. rewrite G0. cbn [bind]. unfold ty_generateBlocks. rewrite N. pose proof (ty_big_at bm (own (ty_signs frames ms)) frames ms [] L Hm He (content_has _ _ C)) as M. change (len (@nil double) + 1) with 1 in M. rewrite M. reflexivity.
    + unfold ty_make. rewrite (verify_at_least_has _ _ _ Hv) by lia. cbn [bind]. unfold ty_generateBlocks. rewrite N. pose proof (ty_big_at bm v frames ms [] L Hm He Hv) as M. change (len (@nil double) + 1) with 1 in M. rewrite M. reflexivity.
Qed.

Print Assumptions C16_every_multiplicity.

Example C16_every_example : frames_read [CentreOfMass; CentreOfMass; Laboratory] [0; 2; 0] = [Laboratory; CentreOfMass; Laboratory]
  /\ (exists o, ty_of Debug [CentreOfMass; CentreOfMass; Laboratory] [0; 2; 0] = Ok o /\ ty_frame Debug o 2 = Ok CentreOfMass)
  /\ ty_of Release [Laboratory; CentreOfMass] [1; 2 ^ 31] = UB.
Proof. split; [reflexivity|]. split; [eexists; conc|vm_compute; reflexivity]. Qed.

Example C16_example : exists l o, Forall2 ty_ok [CentreOfMass; Laboratory; CentreOfMass] [2; 0; 119]
  /\ ty_generateXSS [CentreOfMass; Laboratory; CentreOfMass] [2; 0; 119] = Ok l
  /\ ty_make Debug (View (dbl 5 :: l ++ [dbl 7]) 1 4) 3 = Ok o
  /\ ty_frame Debug o 1 = Ok CentreOfMass /\ ty_frame Debug o 2 = Ok Laboratory /\ ty_mult Debug o 3 = Ok 119
  /\ ty_mult Debug o 4 = Throw OutOfRange.
Proof.
  do 2 eexists. split; [repeat constructor; cbn; try lia; intros; discriminate|]. conc.
Qed.
