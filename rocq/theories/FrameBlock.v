(** FrameAndMultiplicityBlock: the TYR and TYRH blocks. *)
From Coq Require Import ZArith Bool List Lia.
From Coq Require Import ZifyBool ZifyNat.
From Verif Require Export SimpleLaws.
Import ListNotations.
Open Scope Z_scope.

(** src/ACEtk/ReferenceFrame.hpp:11-15 *)
Inductive frame := Laboratory | CentreOfMass.
Definition is_cm (f : frame) : bool := match f with CentreOfMass => true | Laboratory => false end.

(** * Code *)

(** src/ACEtk/continuous/FrameAndMultiplicityBlock.hpp:28-31 *)
Record tyr := Tyr { ty_v : view; ty_ntr : Z; ty_frames : list frame; ty_mults : list Z }.

(** The loop of src/ACEtk/continuous/FrameAndMultiplicityBlock/src/generateXSS.hpp:19-25;
    multiplying a double that is not a NaN by -1 changes its sign. *)
Fixpoint ty_signs (frames : list frame) (ms : list Z) : list double :=
  match frames, ms with
  | f :: frames, m :: ms => (if is_cm f then SFopp (dbl m) else dbl m) :: ty_signs frames ms
  | _, _ => []
  end.
(** .../generateXSS.hpp:1-28 *)
Definition ty_generateXSS (frames : list frame) (ms : list Z) : outcome (list double) :=
  _ <- throw_if (negb (len frames =? len ms)) StdException ;; Ok (ty_signs frames ms).
(** .../generateXSS.hpp:30-42 *)
Definition ty_generateXSS_frames (frames : list frame) : list double :=
  map (fun f => if is_cm f then dbl (-1) else dbl 1) frames.

(** std::abs( int ): undefined for the smallest int *)
Definition abs_int (z : Z) : outcome Z := if z =? - 2 ^ 31 then UB else Ok (Z.abs z).

(** .../generateBlocks.hpp:1-14 *)
Definition ty_generateBlocks bm (v : view) (ntr : Z) : outcome tyr :=
  rs <- mapM (fun index =>
          x <- xss bm v index ;;
          n <- ixss bm v index ;;
          m <- abs_int n ;;
          Ok (if SFltb x (dbl 0) then CentreOfMass else Laboratory, u32 m)) (seqZ 1 (Z.to_nat ntr)) ;;
  Ok (Tyr v ntr (map fst rs) (map snd rs)).

(** .../ctor.hpp:6-13, 89-92 *)
Definition ty_of bm (frames : list frame) (ms : list Z) : outcome tyr :=
  l <- ty_generateXSS frames ms ;; ty_generateBlocks bm (own l) (len frames).
(** .../ctor.hpp:18-23, 99-100 *)
Definition ty_of_frames bm (frames : list frame) : outcome tyr :=
  ty_generateBlocks bm (own (ty_generateXSS_frames frames)) (len frames).
(** .../ctor.hpp:109-114, verifySize.hpp:1-11 *)
Definition ty_make bm (v : view) (ntr : Z) : outcome tyr :=
  _ <- verify_at_least v ntr ;; ty_generateBlocks bm v ntr.

(** FrameAndMultiplicityBlock.hpp:48-95 *)
Definition ty_NTR (o : tyr) : Z := ty_ntr o.
Definition ty_frame bm (o : tyr) (index : Z) : outcome frame :=
  _ <- check bm (verifyIndex (u64 index) 1 (ty_ntr o)) ;; at_ (ty_frames o) index.
Definition ty_mult bm (o : tyr) (index : Z) : outcome Z :=
  _ <- check bm (verifyIndex (u64 index) 1 (ty_ntr o)) ;; at_ (ty_mults o) index.

(** * Specification *)

Definition ty_shows bm (o : tyr) (frames : list frame) (ms : list Z) : Prop :=
  ty_NTR o = len frames /\ ty_frames o = frames /\ ty_mults o = ms
  /\ (forall k f, nth_error frames k = Some f -> ty_frame bm o (Z.of_nat k + 1) = Ok f)
  /\ (forall k m, nth_error ms k = Some m -> ty_mult bm o (Z.of_nat k + 1) = Ok m)
  /\ (debug bm = true -> forall i, u64 i < 1 \/ len frames < u64 i ->
        ty_frame bm o i = Throw OutOfRange /\ ty_mult bm o i = Throw OutOfRange).

(** Multiplicities that fit an int, and are not zero in the centre of mass frame
    (zero has no sign in the words that are read). *)
Definition ty_ok (f : frame) (m : Z) : Prop := 0 <= m < 2 ^ 31 /\ (f = CentreOfMass -> m <> 0).

(** * Lemmas *)

Definition ty_word (f : frame) (m : Z) : Z := if is_cm f then - m else m.

Lemma ty_signs_ok frames ms : Forall2 ty_ok frames ms ->
  ty_signs frames ms = map (fun p => dbl (ty_word (fst p) (snd p))) (combine frames ms).
Proof.
  induction 1 as [|f m frames ms [H1 H2] _ IH]; [reflexivity|]. cbn [ty_signs combine map fst snd]. rewrite IH. f_equal.
  unfold ty_word. destruct f; cbn [is_cm]; [reflexivity|]. apply dbl_opp. auto.
Qed.

Lemma mapM_Forall2 {A B} (g : A -> outcome B) l r : Forall2 (fun a b => g a = Ok b) l r -> mapM g l = Ok r.
Proof. induction 1 as [|a b l r E _ IH]; [reflexivity|]. cbn [mapM]. rewrite E. cbn [bind]. rewrite IH. reflexivity. Qed.

Lemma ty_blocks_at bm v frames ms pre :
  Forall2 ty_ok frames ms ->
  has v (pre ++ map (fun p => dbl (ty_word (fst p) (snd p))) (combine frames ms)) ->
  mapM (fun index => x <- xss bm v index ;; n <- ixss bm v index ;; m <- abs_int n ;;
          Ok (if SFltb x (dbl 0) then CentreOfMass else Laboratory, u32 m)) (seqZ (len pre + 1) (length frames))
  = Ok (combine frames ms).
Proof.
  intros H. revert pre. induction H as [|f m frames ms [H1 H2] HF IH]; intros pre Hv; [reflexivity|].
  cbn [length seqZ mapM combine map fst snd] in *.
  assert (Hw : - 2 ^ 31 < ty_word f m < 2 ^ 31) by (unfold ty_word; destruct (is_cm f); lia).
  rewrite (xss_at bm v pre _ _ _ Hv eq_refl). cbn [bind].
  rewrite (ixss_at bm v pre _ _ _ Hv eq_refl) by lia. cbn [bind].
  assert (Ha : abs_int (ty_word f m) = Ok (Z.abs (ty_word f m))) by (unfold abs_int; destruct (Z.eqb_spec (ty_word f m) (- 2 ^ 31)); [lia|reflexivity]).
  rewrite Ha. cbn [bind].
  rewrite dbl_ltb_0 by lia.
  specialize (IH (pre ++ [dbl (ty_word f m)])). rewrite len_app in IH. change (len [dbl (ty_word f m)]) with 1 in IH.
  rewrite IH by (apply (has_eq _ _ _ Hv); las). cbn [bind]. f_equal. f_equal.
  unfold ty_word. destruct f; cbn [is_cm].
  - destruct (Z.ltb_spec m 0); [lia|]. rewrite u32_small by lia. f_equal. lia.
  - specialize (H2 eq_refl). destruct (Z.ltb_spec (- m) 0); [|lia]. rewrite u32_small by lia. f_equal. lia.
Qed.

Lemma combine_fst {A B} (l : list A) (r : list B) : length l = length r -> map fst (combine l r) = l /\ map snd (combine l r) = r.
Proof.
  revert r; induction l as [|a l IH]; intros [|b r]; cbn; intros E; try discriminate; auto.
  destruct (IH r) as [-> ->]; [lia|auto].
Qed.

Lemma ty_blocks_has bm v frames ms :
  Forall2 ty_ok frames ms -> has v (map (fun p => dbl (ty_word (fst p) (snd p))) (combine frames ms)) ->
  exists o, ty_generateBlocks bm v (len frames) = Ok o /\ ty_v o = v /\ ty_shows bm o frames ms.
Proof.
  intros H Hv. pose proof (Forall2_len _ _ _ H) as L. destruct (combine_fst frames ms L) as [C1 C2].
  pose proof (has_bounds _ _ Hv) as B. rewrite len_map in B. unfold len at 1 in B. rewrite combine_length, <- L, Nat.min_id in B.
  unfold ty_generateBlocks. replace (Z.to_nat (len frames)) with (length frames) by (unfold len; lia).
  pose proof (ty_blocks_at bm v frames ms [] H Hv) as M. change (len (@nil double) + 1) with 1 in M. rewrite M. cbn [bind].
  rewrite C1, C2. eexists; split; [reflexivity|]. split; [reflexivity|].
  unfold ty_shows, ty_NTR, ty_frame, ty_mult. cbn [ty_ntr ty_frames ty_mults].
  split; [reflexivity|]. split; [reflexivity|]. split; [reflexivity|]. split; [|split].
  - intros k f Hk. pose proof (nth_error_len _ _ _ Hk) as Bk. unfold len in Bk. rewrite u64_small by lia. rewrite check_verifyIndex by (unfold len; lia).
    cbn [bind]. apply (at_has _ k); [exact Hk|reflexivity|unfold len; lia].
  - intros k m Hk. pose proof (nth_error_len _ _ _ Hk) as Bk. unfold len in Bk. rewrite u64_small by lia. rewrite check_verifyIndex by (unfold len; lia).
    cbn [bind]. apply (at_has _ k); [exact Hk|reflexivity|unfold len; lia].
  - intros Hd i Hi. unfold check, verifyIndex, throw_if. rewrite Hd.
    destruct ((u64 i <? 1) || (len frames <? u64 i)) eqn:E; [split; reflexivity|lia].
Qed.

Lemma ty_round_trip bm v frames ms l :
  Forall2 ty_ok frames ms -> ty_generateXSS frames ms = Ok l -> has v l ->
  (exists o, ty_make bm v (len frames) = Ok o /\ ty_v o = v /\ ty_shows bm o frames ms)
  /\ (len l < max_words -> exists o, ty_of bm frames ms = Ok o /\ content (ty_v o) l /\ ty_shows bm o frames ms).
Proof.
  intros H G Hv. pose proof G as G0. unfold ty_generateXSS in G. pose proof (Forall2_len _ _ _ H) as L.
  destruct (negb (len frames =? len ms)); [discriminate|]. cbn [throw_if bind] in G. apply Ok_inj in G. rewrite (ty_signs_ok _ _ H) in G. subst l.
  assert (Lw : len (map (fun p => dbl (ty_word (fst p) (snd p))) (combine frames ms)) = len frames).
  { rewrite len_map. unfold len. rewrite combine_length, <- L, Nat.min_id. reflexivity. }
  split.
  - unfold ty_make. rewrite (verify_at_least_has _ _ _ Hv) by lia. cbn [bind]. apply ty_blocks_has; assumption.
  - intros B. unfold ty_of. rewrite G0. cbn [bind]. pose proof (own_content _ B) as C.
    destruct (ty_blocks_has bm _ frames ms H (content_has _ _ C)) as (o & Go & Vo & So). exists o. rewrite Vo. auto.
Qed.

Lemma ty_frames_words frames : ty_generateXSS_frames frames = map (fun p => dbl (ty_word (fst p) (snd p))) (combine frames (repeat 1 (length frames))).
Proof. induction frames as [|f r IH]; [reflexivity|]. cbn [length repeat combine map fst snd]. rewrite <- IH. destruct f; reflexivity. Qed.
Lemma ty_frames_ok frames : Forall2 ty_ok frames (repeat 1 (length frames)).
Proof. induction frames; cbn; constructor; auto. split; [lia|intros; lia]. Qed.
Lemma ty_of_frames_ok bm frames : len frames < max_words ->
  exists o, ty_of_frames bm frames = Ok o /\ content (ty_v o) (ty_generateXSS_frames frames) /\ ty_shows bm o frames (repeat 1 (length frames)).
Proof.
  intros B. unfold ty_of_frames. assert (L : len (ty_generateXSS_frames frames) = len frames) by (unfold ty_generateXSS_frames; apply len_map).
  pose proof (own_content (ty_generateXSS_frames frames) ltac:(lia)) as C.
  destruct (ty_blocks_has bm (own (ty_generateXSS_frames frames)) frames _ (ty_frames_ok frames)) as (o & Go & Vo & So).
  { rewrite <- ty_frames_words. apply content_has. exact C. }
  exists o. rewrite Vo. auto.
Qed.
