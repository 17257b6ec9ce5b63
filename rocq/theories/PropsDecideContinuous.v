(** C50, continued: the TYR block; continuous-energy tables. *)
From Coq Require Import ZArith Bool List Lia Ascii SpecFloat.
From Coq Require Import ZifyBool ZifyNat.
From Verif Require Import PropLemmasBasic Truncated NuBlock ReactionNumbers AtomicBlocks ElectronBlocks ThermalBlocks Accepted Decide PropsDecide DecideMore PropsDecideMore TableData DosimetryTable PropsDecideTables PropsDecideThermal PropsDecideAtomic DlwBlock DecideEnergy PropsDecideEnergy ContinuousTable.
Import ListNotations.
Open Scope Z_scope.

(** * TYR *)

Lemma verify_in (bm : build) m i : 1 <= i <= m -> m < 2 ^ 31 -> check bm (verifyIndex (u64 i) 1 m) = Ok tt.
Proof.
  intros H B. unfold check, verifyIndex, throw_if. rewrite (u64_small i) by lia.
  destruct (debug bm); [|reflexivity]. destruct ((i <? 1) || (m <? i)) eqn:X; [lia|reflexivity].
Qed.
(** [m i] is the i-th word of the block *)
Theorem C50_block_TYR v n (m : Z -> Z) : inside v -> 0 <= n < 2 ^ 31 -> (forall i, 1 <= i <= n -> states v i (m i) /\ - 2 ^ 31 < m i < 2 ^ 31) ->
  needs v n (fun bm => ty_make bm v n)
    (fun bm o => ty_NTR o = n /\ len (ty_frames o) = n /\ forall i, 1 <= i <= n ->
       nth_error (ty_mults o) (Z.to_nat (i - 1)) = Some (Z.abs (m i)) /\ ty_mult bm o i = Ok (Z.abs (m i)) /\ exists f, ty_frame bm o i = Ok f).
Proof.
  intros I Hn Hm. unfold ty_make. split.
  - intros L bm. rewrite verify_enough by assumption. cbn [bind]. unfold ty_generateBlocks.
    match goal with |- context [mapM ?f _] => destruct (mapM_seq f (fun k p => snd p = Z.abs (m (Z.of_nat k + 1))) (Z.to_nat n) 1 0) as (ds & E & N & R) end.
    { intros k Hk. destruct (Hm (1 + Z.of_nat k) ltac:(lia)) as [S B]. destruct (states_holds v _ _ I S ltac:(lia)) as (w & W & Hw).
      rewrite (xss_word bm v _ I) by lia. rewrite W. cbn [bind]. unfold ixss. rewrite (xss_word bm v _ I) by lia. rewrite W. cbn [bind]. rewrite (to_int_whole w _ Hw) by lia. cbn [bind].
      unfold abs_int. destruct (Z.eqb_spec (m (1 + Z.of_nat k)) (- 2 ^ 31)); [lia|]. cbn [bind]. eexists. split; [reflexivity|]. cbn [snd].
      rewrite u32_small by lia. do 2 f_equal. lia. }
    rewrite E. cbn [bind]. eexists. split; [reflexivity|]. unfold ty_NTR. cbn [ty_ntr ty_frames ty_mults]. split; [reflexivity|].
    split; [unfold len; rewrite map_length; lia|]. intros i Hi.
    destruct (nth_error ds (Z.to_nat (i - 1))) as [[f x]|] eqn:Nd; [|apply nth_error_None in Nd; lia].
    pose proof (R _ _ Nd) as Y. cbn [snd] in Y. replace (Z.of_nat (0 + Z.to_nat (i - 1)) + 1) with i in Y by lia. subst x.
    unfold ty_mult, ty_frame, at_. cbn [ty_ntr ty_mults ty_frames]. rewrite verify_in by lia. cbn [bind]. rewrite u64_small by lia. rewrite !nth_error_map, Nd. cbn [option_map fst snd].
    split; [reflexivity|]. split; [reflexivity|]. exists f. reflexivity.
  - intros L. rewrite verify_short by assumption. eexists. reflexivity.
Qed.
Print Assumptions C50_block_TYR.

(** * Tables *)

(** Where block [k] ends that starts at word [start]: in front of the first position behind the k-th of the JXS array that is not smaller, or with the data.
    JXS(22) is the last word of the conventional data and JXS(21) a cross section in them: neither is the start of a block.  The data of DLW (11) also end where
    one of the blocks from JXS(23) on starts; those of DNED (27) end where the photon data (12) start, and no later than the conventional data.
    IXS (32) has ten words for each type of secondary particle (NXS(7)), and one more. *)
Definition block_end (d : tdata) (k start : Z) : Z :=
  let behind n := find (fun x => start <=? x) (skipn n (d_jxs d)) in
  let last := nth 21 (d_jxs d) 0 in
  let photons := nth 11 (d_jxs d) 0 in
  let next := match behind (Z.to_nat k) with
    | Some x => Some (if (x =? last) || (x =? nth 20 (d_jxs d) 0) then last + 1 else x)
    | None => if k =? 27 then Some (last + 1) else None
    end in
  let next := if k =? 11 then match next, behind 22%nat with Some e, Some y => Some (Z.min y e) | e, _ => e end
    else if (k =? 27) && negb (photons =? 0) then option_map (Z.min photons) next else next in
  if k =? 32 then start + 10 * nth 6 (d_nxs d) 0 else match next with Some e => e - 1 | None => len (d_xss d) end.
Definition block_at (d : tdata) (k : Z) (v : view) : Prop :=
  exists start, nth_error (d_jxs d) (Z.to_nat (k - 1)) = Some start /\ 1 <= start <= len (d_xss d) + 1 /\ buf v = d_xss d /\ vbeg v = start - 1 /\ vbeg v <= vend v <= len (d_xss d)
  /\ vend v = block_end d k start.
(** The words of a block with its locators: blocks [k] and [k + 1] *)
Definition with_locators (d : tdata) (V : Z -> view) (k : Z) : view := View (d_xss d) (vbeg (V k)) (vend (V (k + 1))).

(** IXS has [width] words for each secondary particle.  Piece [k] of particle [p] has the words [q]: it begins at word [k] of the particle, and ends in front of
    the first of the words of IXS behind this one that is not smaller, or with the data. *)
Definition piece_at (d : tdata) (ixs : view) (width p k : Z) (q : view) : Prop :=
  exists start, states ixs ((p - 1) * width + k) start /\ 1 <= start <= len (d_xss d) + 1 /\ buf q = d_xss d /\ vbeg q = start - 1 /\ vbeg q <= vend q <= len (d_xss d)
  /\ match find (fun w => SFleb (dbl start) w) (slice (buf ixs) (vbeg ixs + (p - 1) * width + k) (vend ixs)) with Some w => sf_trunc w = Some (vend q + 1) | None => vend q = len (d_xss d) end.
(** The words of a block with its locators: pieces [k] and [k + 1] of particle [p] *)
Definition with_pieces (d : tdata) (W : Z -> Z -> view) (p k : Z) : view := View (d_xss d) (vbeg (W p k)) (vend (W p (k + 1))).
Lemma piece_inside d ixs width p k q : len (d_xss d) < 2 ^ 31 - 1 -> piece_at d ixs width p k q -> inside q.
Proof. intros Lx (s & _ & Hs & B & V1 & V2 & _). unfold inside, framed, max_words. rewrite B. pose proof (len_nonneg (d_xss d)). lia. Qed.
Lemma word_of_piece bm ixs width n p k z : inside ixs -> width * n <= size ixs -> 0 <= n < 2 ^ 27 -> 1 <= width <= 16 -> 1 <= p <= n -> 1 <= k <= width ->
  states ixs ((p - 1) * width + k) z -> 0 <= z < 2 ^ 31 -> ixss_size bm ixs ((p - 1) * width + k) = Ok z.
Proof.
  intros I Sz Hn Hw Hp Hk S Hz. unfold ixss_size, ixss. assert (B : 1 <= (p - 1) * width + k <= size ixs) by nia.
  rewrite (xss_word bm ixs _ I B). destruct (states_holds ixs _ _ I S B) as (w & W & X). rewrite W. cbn [bind]. rewrite (to_int_whole w _ X) by lia. cbn [bind].
  rewrite u64_small by lia. reflexivity.
Qed.
Lemma piece_end d ixs width n p k q : inside ixs -> width * n <= size ixs -> 0 <= n < 2 ^ 27 -> 1 <= width <= 16 -> 1 <= p <= n -> 1 <= k <= width -> len (d_xss d) < 2 ^ 31 - 1 ->
  piece_at d ixs width p k q -> exists start, states ixs ((p - 1) * width + k) start /\ 0 <= start < 2 ^ 31 /\ vbeg q = start - 1 /\ tview d (vbeg q) (vend q) = q
  /\ (ws <- read_range (buf ixs) (vbeg ixs + (p - 1) * width + k) (vend ixs) ;; e <- (match find (fun x => SFleb (dbl start) x) ws with Some x => trunc_to_size x | None => Ok 0 end) ;;
       Ok (start - 1, if negb (e =? 0) then e - 1 else len (d_xss d))) = Ok (vbeg q, vend q).
Proof.
  intros I Sz Hn Hw Hp Hk Lx (s & S & Hs & B & V1 & V2 & V3). exists s. split; [exact S|]. split; [lia|]. split; [exact V1|]. split; [destruct q; cbn in *; subst; reflexivity|].
  pose proof I as [(F1 & F2 & F3) F4]. unfold size in Sz.
  unfold read_range. destruct ((0 <=? vbeg ixs + (p - 1) * width + k) && (vbeg ixs + (p - 1) * width + k <=? vend ixs) && (vend ixs <=? len (buf ixs))) eqn:R; [|nia].
  cbn [bind]. destruct (find _ _) as [w|].
  - unfold trunc_to_size, in_size. rewrite V3. destruct ((0 <=? vend q + 1) && (vend q + 1 <? 2 ^ 64)) eqn:Y; [|lia]. cbn [bind].
    destruct (Z.eqb_spec (vend q + 1) 0) as [X|_]; [lia|]. cbn [negb]. rewrite V1. do 2 f_equal. lia.
  - cbn [bind Z.eqb negb]. rewrite V1, V3. reflexivity.
Qed.

Definition continuous_states (d : tdata) (V : Z -> view) (nes ntr nr ntrp nu unr dnu npcr ntype : Z) : Prop :=
  len (d_nxs d) = 16 /\ len (d_jxs d) = 32 /\ len (d_xss d) < 2 ^ 31 - 1 /\ (forall x, In x (d_jxs d) -> 0 <= x < 2 ^ 31 - 1)
  /\ nth_error (d_nxs d) 2 = Some nes /\ nth_error (d_nxs d) 3 = Some ntr /\ nth_error (d_nxs d) 4 = Some nr /\ nth_error (d_nxs d) 5 = Some ntrp
  /\ nth_error (d_nxs d) 6 = Some ntype /\ nth_error (d_nxs d) 7 = Some npcr
  /\ (exists s, nth_error (d_nxs d) 8 = Some s /\ s <> 0)
  /\ nth_error (d_jxs d) 1 = Some nu /\ nth_error (d_jxs d) 22 = Some unr /\ nth_error (d_jxs d) 23 = Some dnu
  /\ 0 <= nes < 2 ^ 29 /\ 0 <= ntr < 2 ^ 29 /\ 0 <= nr < 2 ^ 29 /\ 0 <= ntrp < 2 ^ 29 /\ 0 <= npcr < 2 ^ 27 /\ 0 <= ntype < 2 ^ 27
  /\ block_at d 1 (V 1) /\ (0 < nu -> block_at d 2 (V 2)) /\ (forall k, 3 <= k <= 11 -> block_at d k (V k)) /\ (0 < ntrp -> forall k, 12 <= k <= 20 -> block_at d k (V k))
  /\ (0 < unr -> block_at d 23 (V 23)) /\ (0 < dnu -> block_at d 24 (V 24)) /\ (0 < npcr -> forall k, 25 <= k <= 27 -> block_at d k (V k))
  /\ (0 < ntype -> forall k, 30 <= k <= 32 -> block_at d k (V k)).

Lemma decides_bind {A B} Q1 Q2 (m1 : build -> outcome A) (m2 : build -> A -> outcome B) P1 P2 : Q1 \/ ~ Q1 -> decides Q1 m1 P1 ->
  (forall bm a, P1 bm a -> decides Q2 (fun bm => m2 bm a) P2) ->
  decides (Q1 /\ Q2) (fun bm => a <- m1 bm ;; b <- m2 bm a ;; Ok (a, b)) (fun bm p => P1 bm (fst p) /\ P2 bm (snd p)).
Proof.
  intros Dec D1 D2. split.
  - intros [q1 q2] bm. destruct (proj1 D1 q1 bm) as (a & -> & Pa). cbn [bind]. destruct (proj1 (D2 bm a Pa) q2 bm) as (b & -> & Pb). cbn [bind]. eexists. split; [reflexivity|]. split; assumption.
  - intros N. destruct Dec as [q1|n1].
    + destruct (proj1 D1 q1 Debug) as (a & -> & Pa). cbn [bind]. destruct (proj2 (D2 Debug a Pa)) as (e & ->); [|eexists; reflexivity]. intros q2. apply N. split; assumption.
    + destruct (proj2 D1 n1) as (e & ->). eexists. reflexivity.
Qed.

Section Table.
  Context (d : tdata).
  Hypothesis Lj : len (d_jxs d) = 32.
  Hypothesis Lx : len (d_xss d) < 2 ^ 31 - 1.
  Hypothesis Hj : forall x, In x (d_jxs d) -> 0 <= x < 2 ^ 31 - 1.
  Lemma block_at_inside k v : block_at d k v -> inside v.
  Proof. intros (s & _ & Hs & B & V1 & V2 & _). unfold inside, framed, max_words. rewrite B. pose proof (len_nonneg (d_xss d)). lia. Qed.
  Lemma nth_jxs k : (k < 32)%nat -> nth_error (d_jxs d) k = Some (nth k (d_jxs d) 0).
  Proof. intros H. apply nth_error_nth'. unfold len in Lj. lia. Qed.
  Lemma block_at_block bm k v n : 1 <= k <= 32 -> nth_error (d_nxs d) 6 = Some n -> 0 <= n < 2 ^ 27 -> (k = 32 -> 0 < n) -> block_at d k v -> ce_block bm d n k = Ok (vbeg v, vend v) /\ tview d (vbeg v) (vend v) = v.
  Proof.
    intros Hk Nn Hn Kn (s & E & Hs & B & V1 & V2 & V3). split; [|destruct v; cbn in *; subst; reflexivity].
    assert (F : forall n, jxs_find s (skipn n (d_jxs d)) = find (fun x => s <=? x) (skipn n (d_jxs d))).
    { intros m. apply find_same; [intros x Hx; pose proof (Hj x (in_skipn _ _ _ Hx)); lia|lia]. }
    pose proof (Hj _ (nth_error_In _ _ (nth_jxs 21 ltac:(lia)))) as B21. pose proof (Hj _ (nth_error_In _ _ (nth_jxs 20 ltac:(lia)))) as B20.
    pose proof (Hj _ (nth_error_In _ _ (nth_jxs 11 ltac:(lia)))) as B11.
    unfold ce_block, d_JXS. rewrite (fetch_at bm (d_jxs d) k s) by (assumption || lia). cbn [bind]. pose proof (Hj s (nth_error_In _ _ E)) as Bs. rewrite u64_small by lia.
    cbv zeta. unfold block_end in V3. destruct (Z.eqb_spec k 32) as [K32|K32].
    { cbn [negb bind]. specialize (Kn K32). destruct (Z.eqb_spec n 0); [lia|]. cbn [negb]. rewrite (nth_error_nth _ _ 0 Nn) in V3. rewrite u32_small by lia. rewrite u64_small by lia.
      destruct (Z.eqb_spec (s + n * 10 + 1) 0); [lia|]. cbn [negb]. rewrite V1, V3. do 2 f_equal. lia. }
    destruct (Z.eqb_spec s 0) as [X|_]; [lia|]. cbn [negb]. rewrite !F.
    rewrite (fetch_at bm (d_jxs d) 22 (nth 21 (d_jxs d) 0)) by (try apply nth_jxs; lia).
    rewrite (fetch_at bm (d_jxs d) 12 (nth 11 (d_jxs d) 0)) by (try apply nth_jxs; lia).
    set (last := nth 21 (d_jxs d) 0) in *. set (fis := nth 20 (d_jxs d) 0) in *. set (gpd := nth 11 (d_jxs d) 0) in *.
    destruct (find _ (skipn (Z.to_nat k) (d_jxs d))) as [x|] eqn:F1.
    - apply find_some in F1 as [G1 G2]. apply in_skipn in G1. pose proof (Hj x G1). cbn [bind].
      rewrite (fetch_at bm (d_jxs d) 21 fis) by (try apply nth_jxs; lia). cbn [bind].
      assert (Ee : (if u64 (if negb (x =? last) then x else x + 1) =? u64 fis then u64 (last + 1) else u64 (if negb (x =? last) then x else x + 1)) = (if (x =? last) || (x =? fis) then last + 1 else x)).
      { destruct (Z.eqb_spec x last); cbn [negb orb]; rewrite !u64_small by lia.
        - destruct (Z.eqb_spec (x + 1) fis); lia.
        - destruct (Z.eqb_spec x fis); lia. }
      rewrite Ee. set (e := if (x =? last) || (x =? fis) then last + 1 else x) in *.
      assert (Ep : 0 < e < 2 ^ 31) by (unfold e; destruct (Z.eqb_spec x last); cbn [orb]; [lia|]; destruct (Z.eqb_spec x fis); [|lia]; cbn [orb] in *; lia).
      destruct (Z.eqb_spec k 11) as [K|K].
      + destruct (find _ (skipn 22 (d_jxs d))) as [y|] eqn:F2.
        * apply find_some in F2 as [I1 I2]. apply in_skipn in I1. pose proof (Hj y I1). cbn [bind]. rewrite u64_small by lia.
          destruct (Z.ltb_spec y e); [destruct (Z.eqb_spec y 0); [lia|]|destruct (Z.eqb_spec e 0); [lia|]]; cbn [negb]; rewrite V1, V3; do 2 f_equal; lia.
        * cbn [bind]. destruct (Z.eqb_spec e 0); [lia|]. cbn [negb]. rewrite V1, V3. reflexivity.
      + destruct (Z.eqb_spec k 27) as [K'|K']; cbn [andb] in V3.
        * cbn [bind]. destruct (Z.eqb_spec e 0); [lia|]. destruct (Z.eqb_spec gpd 0) as [G|G]; cbn [negb option_map] in *.
          -- destruct (Z.eqb_spec e 0); [lia|]. cbn [negb]. rewrite V1, V3. reflexivity.
          -- rewrite u64_small by lia. destruct (Z.ltb_spec gpd e); [destruct (Z.eqb_spec gpd 0); [lia|]|destruct (Z.eqb_spec e 0); [lia|]]; cbn [negb]; rewrite V1, V3; do 2 f_equal; lia.
        * cbn [bind]. destruct (Z.eqb_spec e 0); [lia|]. cbn [negb]. rewrite V1, V3. reflexivity.
    - cbn [bind]. destruct (Z.eqb_spec k 11) as [K|K].
      + destruct (Z.eqb_spec k 27) as [|_]; [lia|]. destruct (find _ (skipn 22 (d_jxs d))) as [y|] eqn:F2.
        * apply find_some in F2 as [I1 I2]. pose proof (Hj y (in_skipn _ _ _ I1)). cbn [bind]. rewrite u64_small by lia. destruct (Z.ltb_spec y 0); [lia|]. cbn [Z.eqb negb]. rewrite V1, V3. reflexivity.
        * cbn [bind Z.eqb negb]. rewrite V1, V3. reflexivity.
      + destruct (Z.eqb_spec k 27) as [K'|K']; cbn [andb] in V3.
        * cbn [bind Z.eqb]. rewrite (u64_small (last + 1)) by lia. destruct (Z.eqb_spec gpd 0) as [G|G]; cbn [negb option_map] in *.
          -- destruct (Z.eqb_spec (last + 1) 0); [lia|]. cbn [negb]. rewrite V1, V3. reflexivity.
          -- rewrite u64_small by lia. destruct (Z.ltb_spec gpd (last + 1)); [destruct (Z.eqb_spec gpd 0); [lia|]|destruct (Z.eqb_spec (last + 1) 0); [lia|]]; cbn [negb]; rewrite V1, V3; do 2 f_equal; lia.
        * cbn [bind Z.eqb negb]. rewrite V1, V3. reflexivity.
  Qed.
End Table.

(** A table of a neutron or charged particle whose blocks begin where the JXS array, and those of the secondary particles where IXS says, all inside the data:
    it is accepted exactly when its ZAID ends in the letter of such a table and each of its blocks is accepted, on the words between its positions.  [jnu], [junr]
    and [jdnu] are the positions of the fission multiplicities, the probability tables and the delayed multiplicities; [np p] is the number of reactions of
    secondary particle [p].  For each block made of parts [Q] is the condition under which it is accepted and [P] what it shows, as in C50_fission_multiplicity,
    C50_both_fission_multiplicities, C50_block_SIG, C50_block_AND, C50_block_DLW, C50_block_SIGP, C50_block_DLWH, C50_photon_yields, C50_heating and
    C50_block_SIGH. *)
Theorem C50_continuous_table zaid d V nes ntr nr ntrp jnu junr jdnu npcr ntype (m : Z -> Z) (W : Z -> Z -> view) (np : Z -> Z) (mp : Z -> Z -> Z)
  (Qnu Qsig Qang Qdlw Qsigp Qandp Qdlwp Qyp Qunr Qdnu Qbdd Qdned : Prop) (Qhpd Qsigh Qandh Qdlwh Qyh : Z -> Prop)
  (Pnu : build -> nu -> Prop) (Psig : build -> blockWithLocators view -> Prop) (Pang : build -> angularBlock -> Prop) (Pdlw : build -> dlw -> Prop)
  (Psigp : build -> blockWithLocators photonProduction -> Prop) (Pandp : build -> angularBlock -> Prop) (Pdlwp : build -> dlwh -> Prop) (Pyp : build -> view -> Prop)
  (Punr : build -> unr -> Prop) (Pdnu : build -> nu -> Prop) (Pbdd : build -> bdd -> Prop) (Pdned : build -> dlwh -> Prop)
  (Phpd : Z -> build -> view -> Prop) (Psigh : Z -> build -> blockWithLocators prefixedTabulated -> Prop) (Pandh : Z -> build -> angularBlock -> Prop)
  (Pdlwh : Z -> build -> dlwh -> Prop) (Pyh : Z -> build -> view -> Prop) :
  zaid <> [] -> continuous_states d V nes ntr nr ntrp jnu junr jdnu npcr ntype ->
  (forall i, 1 <= i <= ntr -> states (V 5) i (m i) /\ - 2 ^ 31 < m i < 2 ^ 31) ->
  (0 < jnu -> decides Qnu (fun bm => nu_make bm (V 2)) Pnu) ->
  decides Qsig (fun bm => bl_make bm (sig_generateData bm) (with_locators d V 6) (vbeg (V 7)) ntr true) Psig ->
  decides Qang (fun bm => ab_make bm (with_locators d V 8) (vbeg (V 9)) nr true) Pang ->
  (forall t, ty_ntr t = ntr -> len (ty_frames t) = ntr -> (forall i, 1 <= i <= ntr -> nth_error (ty_mults t) (Z.to_nat (i - 1)) = Some (Z.abs (m i))) ->
     decides Qdlw (fun bm => dl_make bm (with_locators d V 10) (vbeg (V 11)) t nr) Pdlw) ->
  (0 < ntrp ->
     decides Qsigp (fun bm => bl_make bm (sigp_generateData bm) (with_locators d V 14) (vbeg (V 15)) ntrp true) Psigp
     /\ decides Qandp (fun bm => ab_make bm (with_locators d V 16) (vbeg (V 17)) ntrp false) Pandp
     /\ decides Qdlwp (fun bm => dh_make bm (with_locators d V 18) (vbeg (V 19)) ntrp None) Pdlwp
     /\ decides Qyp (fun bm => yp_make bm (V 20)) Pyp) ->
  (0 < junr -> decides Qunr (fun bm => un_make bm (V 23)) Punr) ->
  (0 < jdnu -> decides Qdnu (fun bm => nu_make bm (V 24)) Pdnu) ->
  (0 < npcr -> decides Qbdd (fun bm => bd_make bm (V 25) npcr) Pbdd
     /\ decides Qdned (fun bm => dh_make bm (with_locators d V 26) (vbeg (V 27)) npcr None) Pdned) ->
  (0 < ntype -> ntype <= size (V 31) -> forall p, 1 <= p <= ntype ->
     (forall k, 1 <= k <= 10 -> piece_at d (V 32) 10 p k (W p k)) /\ states (V 31) p (np p) /\ 0 <= np p < 2 ^ 29
     /\ (forall i, 1 <= i <= np p -> states (W p 3) i (mp p i) /\ - 2 ^ 31 < mp p i < 2 ^ 31)
     /\ decides (Qhpd p) (fun bm => hpd_make bm (W p 1)) (Phpd p)
     /\ decides (Qsigh p) (fun bm => bl_make bm (sigh_generateData bm) (with_pieces d W p 4) (vbeg (W p 5)) (np p) true) (Psigh p)
     /\ decides (Qandh p) (fun bm => ab_make bm (with_pieces d W p 6) (vbeg (W p 7)) (np p) false) (Pandh p)
     /\ (forall t, ty_ntr t = np p -> len (ty_frames t) = np p -> decides (Qdlwh p) (fun bm => dh_make bm (with_pieces d W p 8) (vbeg (W p 9)) (np p) (Some t)) (Pdlwh p))
     /\ decides (Qyh p) (fun bm => yp_make bm (W p 10)) (Pyh p)) ->
  decides
    (In (last zaid "0"%char) ["c"; "h"; "o"; "r"; "s"; "a"]%char /\ nes * 5 <= size (V 1) /\ (0 < jnu -> Qnu) /\ ntr <= size (V 3) /\ ntr <= size (V 4)
     /\ ntr <= size (V 5) /\ Qsig /\ Qang /\ Qdlw
     /\ (0 < ntrp -> nes <= size (V 12) /\ ntrp <= size (V 13) /\ Qsigp /\ Qandp /\ Qdlwp /\ Qyp)
     /\ (0 < junr -> Qunr) /\ (0 < jdnu -> Qdnu) /\ (0 < npcr -> Qbdd /\ Qdned)
     /\ (0 < ntype -> ntype <= size (V 30) /\ ntype <= size (V 31)
          /\ forall p, 1 <= p <= ntype -> Qhpd p /\ np p <= size (W p 2) /\ np p <= size (W p 3) /\ Qsigh p /\ Qandh p /\ Qdlwh p /\ Qyh p))
    (fun bm => ce_make bm zaid d)
    (fun bm t => ct_data t = d /\ arrays bm nes 5 (ct_esz t) /\ (if 0 <? jnu then exists o, ct_nu t = Some o /\ Pnu bm o else ct_nu t = None)
       /\ arrays bm ntr 1 (ct_mtr t) /\ arrays bm ntr 1 (ct_lqr t)
       /\ (ty_NTR (ct_tyr t) = ntr /\ forall i, 1 <= i <= ntr -> ty_mult bm (ct_tyr t) i = Ok (Z.abs (m i)))
       /\ Psig bm (ct_sig t) /\ Pang bm (ct_ang t) /\ Pdlw bm (ct_dlw t)
       /\ (if 0 <? ntrp then exists g r s a e y, ct_gpd t = Some g /\ ct_mtrp t = Some r /\ ct_sigp t = Some s /\ ct_andp t = Some a /\ ct_dlwp t = Some e /\ ct_yp t = Some y
             /\ arrays bm nes 1 g /\ arrays bm ntrp 1 r /\ Psigp bm s /\ Pandp bm a /\ Pdlwp bm e /\ Pyp bm y
           else ct_gpd t = None /\ ct_mtrp t = None /\ ct_sigp t = None /\ ct_andp t = None /\ ct_dlwp t = None /\ ct_yp t = None)
       /\ (if 0 <? junr then exists o, ct_unr t = Some o /\ Punr bm o else ct_unr t = None)
       /\ (if 0 <? jdnu then exists o, ct_dnu t = Some o /\ Pdnu bm o else ct_dnu t = None)
       /\ (if 0 <? npcr then exists b e, ct_bdd t = Some b /\ ct_dned t = Some e /\ Pbdd bm b /\ Pdned bm e else ct_bdd t = None /\ ct_dned t = None)
       /\ (if 0 <? ntype then (exists o, ct_ptype t = Some o /\ arrays bm ntype 1 o) /\ ct_ntro t = Some (Ntro (V 31) ntype) /\ ct_ixs t = Some (Ntro (V 32) ntype)
             /\ len (ct_particles t) = ntype /\ forall p, 1 <= p <= ntype -> exists x, ce_at t p = Ok x
             /\ Phpd p bm (p_hpd x) /\ arrays bm (np p) 1 (p_mtrh x) /\ ty_NTR (p_tyrh x) = np p
             /\ (forall i, 1 <= i <= np p -> ty_mult bm (p_tyrh x) i = Ok (Z.abs (mp p i)))
             /\ Psigh p bm (p_sigh x) /\ Pandh p bm (p_andh x) /\ Pdlwh p bm (p_dlwh x) /\ Pyh p bm (p_yh x)
           else ct_ptype t = None /\ ct_ntro t = None /\ ct_ixs t = None /\ ct_particles t = [])).
Proof.
  intros Hz (Ln & Lj & Lx & Hj & N3 & N4 & N5 & N6 & N7 & N8 & (s9 & N9 & S9) & J2 & J23 & J24 & B1 & B2 & B3 & B4 & B5 & B6 & P1 & P2 & P3 & P12 & P23 & P24 & P25 & P30) Hm Dnu Dsig Dang Ddlw Dph Dunr Ddnu Ddel Dsec.
  assert (Ins := fun k v => block_at_inside d Lx Hj k v). assert (Bl : forall (bm : build) k v, 1 <= k <= 32 -> (k = 32 -> 0 < ntype) -> block_at d k v -> ce_block bm d ntype k = Ok (vbeg v, vend v) /\ tview d (vbeg v) (vend v) = v)
    by (intros bm k v Hk Kn Pk; exact (block_at_block d Lj Lx Hj bm k v ntype Hk N7 B6 Kn Pk)).
  pose proof (array_decides (V 1) nes 5 (Ins _ _ P1) ltac:(lia) ltac:(lia) ltac:(lia)) as D1.
  pose proof (array_decides (V 3) ntr 1 (Ins _ _ (P3 3 ltac:(lia))) ltac:(lia) ltac:(lia) ltac:(lia)) as D3.
  pose proof (array_decides (V 4) ntr 1 (Ins _ _ (P3 4 ltac:(lia))) ltac:(lia) ltac:(lia) ltac:(lia)) as D4.
  pose proof (decides_needs _ _ _ _ (C50_block_TYR (V 5) ntr m (Ins _ _ (P3 5 ltac:(lia))) ltac:(lia) Hm)) as D5.
  pose proof (decides_when (0 <? jnu) Qnu (fun bm => nu_make bm (V 2)) Pnu (fun K => Dnu ltac:(lia))) as D2.
  assert (Dp : decides (0 <? ntrp = true -> nes * 1 <= size (V 12) /\ ntrp * 1 <= size (V 13) /\ Qsigp /\ Qandp /\ Qdlwp /\ Qyp)
    (fun bm => if 0 <? ntrp then o <- (g <- ad_make (V 12) nes 1 ;; r <- (r <- ad_make (V 13) ntrp 1 ;; x <- (s <- bl_make bm (sigp_generateData bm) (with_locators d V 14) (vbeg (V 15)) ntrp true ;;
        x <- (a <- ab_make bm (with_locators d V 16) (vbeg (V 17)) ntrp false ;; x <- (e <- dh_make bm (with_locators d V 18) (vbeg (V 19)) ntrp None ;; y <- yp_make bm (V 20) ;; Ok (e, y)) ;; Ok (a, x)) ;; Ok (s, x)) ;; Ok (r, x)) ;; Ok (g, r)) ;; Ok (Some o) else Ok None)
    (fun bm x => if 0 <? ntrp then exists o, x = Some o /\ (arrays bm nes 1 (fst o) /\ arrays bm ntrp 1 (fst (snd o)) /\ Psigp bm (fst (snd (snd o))) /\ Pandp bm (fst (snd (snd (snd o)))) /\ Pdlwp bm (fst (snd (snd (snd (snd o))))) /\ Pyp bm (snd (snd (snd (snd (snd o)))))) else x = None)).
  { apply (decides_when (0 <? ntrp) _ _ (fun bm (o : arrayData * (arrayData * (blockWithLocators photonProduction * (angularBlock * (dlwh * view))))) => arrays bm nes 1 (fst o) /\ arrays bm ntrp 1 (fst (snd o)) /\ Psigp bm (fst (snd (snd o))) /\ Pandp bm (fst (snd (snd (snd o)))) /\ Pdlwp bm (fst (snd (snd (snd (snd o))))) /\ Pyp bm (snd (snd (snd (snd (snd o))))))).
    intros K. destruct (Dph ltac:(lia)) as (E1 & E2 & E3 & E4). assert (P := P12 ltac:(lia)).
    pose proof (array_decides (V 12) nes 1 (Ins _ _ (P 12 ltac:(lia))) ltac:(lia) ltac:(lia) ltac:(lia)) as F1.
    pose proof (array_decides (V 13) ntrp 1 (Ins _ _ (P 13 ltac:(lia))) ltac:(lia) ltac:(lia) ltac:(lia)) as F2.
    exact (decides_pair _ _ _ _ _ _ F1 (decides_pair _ _ _ _ _ _ F2 (decides_pair _ _ _ _ _ _ E1 (decides_pair _ _ _ _ _ _ E2 (decides_pair _ _ _ _ _ _ E3 E4))))). }
  pose proof (decides_when (0 <? junr) Qunr (fun bm => un_make bm (V 23)) Punr (fun K => Dunr ltac:(lia))) as Du.
  pose proof (decides_when (0 <? jdnu) Qdnu (fun bm => nu_make bm (V 24)) Pdnu (fun K => Ddnu ltac:(lia))) as Dn.
  pose proof (decides_when (0 <? npcr) (Qbdd /\ Qdned) (fun bm => b <- bd_make bm (V 25) npcr ;; e <- dh_make bm (with_locators d V 26) (vbeg (V 27)) npcr None ;; Ok (b, e))
    (fun bm o => Pbdd bm (fst o) /\ Pdned bm (snd o)) (fun K => decides_pair _ _ _ _ _ _ (proj1 (Ddel ltac:(lia))) (proj2 (Ddel ltac:(lia))))) as De.
  pose (Qp := fun p => Qhpd p /\ np p <= size (W p 2) /\ np p <= size (W p 3) /\ Qsigh p /\ Qandh p /\ Qdlwh p /\ Qyh p).
  pose (Pp := fun p bm x => Phpd p bm (p_hpd x) /\ arrays bm (np p) 1 (p_mtrh x) /\ ty_NTR (p_tyrh x) = np p
             /\ (forall i, 1 <= i <= np p -> ty_mult bm (p_tyrh x) i = Ok (Z.abs (mp p i)))
             /\ Psigh p bm (p_sigh x) /\ Pandh p bm (p_andh x) /\ Pdlwh p bm (p_dlwh x) /\ Pyh p bm (p_yh x)).
  assert (Dq : 0 < ntype -> ntype <= size (V 31) -> forall p, 1 <= p <= ntype -> decides (Qp p) (fun bm => ce_particle_blocks bm d (Ntro (V 31) ntype) (Ntro (V 32) ntype) p) (fun bm => Pp p bm)).
  { intros K Sz p Hp. destruct (Dsec K Sz p Hp) as (Pc & Sn & Bn & Hm' & E1 & E3 & E4 & E5 & E6).
    pose proof (Ins _ _ (P30 K 31 ltac:(lia))) as I31. pose proof (Ins _ _ (P30 K 32 ltac:(lia))) as I32.
    assert (S32 : 10 * ntype <= size (V 32)).
    { destruct (P30 K 32 ltac:(lia)) as (s & _ & _ & _ & Y1 & _ & Y2). unfold block_end in Y2. cbv zeta in Y2. change (32 =? 32) with true in Y2. cbv iota in Y2.
      rewrite (nth_error_nth _ _ 0 N7) in Y2. unfold size. lia. }
    assert (Bq : forall (bm : build) k, 1 <= k <= 10 -> ce_pblock bm d (Ntro (V 32) ntype) p k = Ok (vbeg (W p k), vend (W p k)) /\ tview d (vbeg (W p k)) (vend (W p k)) = W p k).
    { intros bm k Hk. destruct (piece_end d (V 32) 10 ntype p k (W p k) I32 S32 B6 ltac:(lia) Hp ltac:(lia) Lx (Pc k Hk)) as (s & Ss & Bs & _ & Et & Er). split; [|exact Et].
      unfold ce_pblock, ix_LLOC. cbn [nt_v]. rewrite (word_of_piece bm (V 32) 10 ntype p k s) by (assumption || lia). cbn [bind]. exact Er. }
    assert (En : forall bm : build, nt_NP bm (Ntro (V 31) ntype) p = Ok (np p)).
    { intros bm. unfold nt_NP. cbn [nt_v]. rewrite (read_int bm (V 31) p _ (np p) I31 ltac:(lia) eq_refl (states_holds (V 31) p (np p) I31 Sn ltac:(lia)) ltac:(lia)). cbn [bind]. rewrite u32_small by lia. reflexivity. }
    pose proof (array_decides (W p 2) (np p) 1 (piece_inside d (V 32) 10 _ _ _ Lx (Pc 2 ltac:(lia))) ltac:(lia) ltac:(lia) ltac:(lia)) as F5.
    pose proof (decides_needs _ _ _ _ (C50_block_TYR (W p 3) (np p) (mp p) (piece_inside d (V 32) 10 _ _ _ Lx (Pc 3 ltac:(lia))) ltac:(lia) Hm')) as F6.
    assert (Dec : np p <= size (W p 3) \/ ~ np p <= size (W p 3)) by lia.
    pose proof (decides_bind _ _ _ _ _ _ Dec F6 (fun bm t Pt => decides_pair _ _ _ _ _ _ E3 (decides_pair _ _ _ _ _ _ E4 (decides_pair _ _ _ _ _ _ (E5 t (proj1 Pt) (proj1 (proj2 Pt))) E6)))) as T.
    pose proof (decides_pair _ _ _ _ _ _ E1 (decides_pair _ _ _ _ _ _ F5 T)) as T'. clear T.
    refine (decides_same _ _ _ _ _ _ _ (decides_map _ _ _ (fun x => let '(hp, (mt, (ty, (si, (an, (dl, y)))))) := x in Particle hp mt ty si an dl y) _ _ T')); clear T'.
    - intros bm. unfold ce_particle_blocks. pose proof (Bq bm) as Bb.
      destruct (Bb 1 ltac:(lia)) as [-> X1]. cbn [bind fst snd]. rewrite X1. destruct (hpd_make bm (W p 1)); cbn [bind]; try reflexivity.
      rewrite En. cbn [bind].
      destruct (Bb 2 ltac:(lia)) as [-> X2]. cbn [bind fst snd]. rewrite X2. unfold mt_make. destruct (ad_make (W p 2) (np p) 1); cbn [bind]; try reflexivity.
      destruct (Bb 3 ltac:(lia)) as [-> X3]. cbn [bind fst snd]. rewrite X3. destruct (ty_make bm (W p 3) (np p)) as [ty|x|]; cbn [bind]; try reflexivity.
      change (4 + 1) with 5. change (6 + 1) with 7. change (8 + 1) with 9.
      destruct (Bb 4 ltac:(lia)) as [-> _]. destruct (Bb 5 ltac:(lia)) as [-> _]. cbn [bind fst snd]. unfold tview, with_pieces.
      change (4 + 1) with 5. destruct (bl_make _ _ _ _ _ _); cbn [bind]; try reflexivity.
      destruct (Bb 6 ltac:(lia)) as [-> _]. destruct (Bb 7 ltac:(lia)) as [-> _]. cbn [bind fst snd]. change (6 + 1) with 7. destruct (ab_make _ _ _ _ _); cbn [bind]; try reflexivity.
      destruct (Bb 8 ltac:(lia)) as [-> _]. destruct (Bb 9 ltac:(lia)) as [-> _]. cbn [bind fst snd]. change (8 + 1) with 9. destruct (dh_make _ _ _ _ _); cbn [bind]; try reflexivity.
      destruct (Bb 10 ltac:(lia)) as [-> X10]. cbn [bind fst snd]. unfold tview in X10. rewrite X10. destruct (yp_make _ _); cbn [bind]; reflexivity.
    - unfold Qp. rewrite Z.mul_1_r. tauto.
    - intros bm (hp & mt & ty & si & an & dl & y). cbn [fst snd]. intros (A1 & A3 & (A4 & _ & A5) & A6 & A7 & A8 & A9). unfold Pp.
      cbn [p_hpd p_mtrh p_tyrh p_sigh p_andh p_dlwh p_yh]. split; [exact A1|]. split; [exact A3|]. split; [exact A4|].
      split; [intros i Hi; exact (proj1 (proj2 (A5 i Hi)))|]. split; [exact A6|]. split; [exact A7|]. split; [exact A8|exact A9]. }
  pose (Px := fun (bm : build) (o : arrayData * (ntro * (ntro * list particle))) => arrays bm ntype 1 (fst o) /\ (fst (snd o) = Ntro (V 31) ntype /\ ntype <= size (V 31)) /\ fst (snd (snd o)) = Ntro (V 32) ntype
        /\ (length (snd (snd (snd o))) = Z.to_nat ntype /\ forall p, 1 <= p <= ntype -> exists x, nth_error (snd (snd (snd o))) (Z.to_nat (p - 1)) = Some x /\ Pp p bm x)).
  assert (Ds : decides (0 <? ntype = true -> ntype * 1 <= size (V 30) /\ ntype <= size (V 31) /\ True /\ forall p, 1 <= p <= ntype -> Qp p)
    (fun bm => if 0 <? ntype then o <- (pt <- ad_make (V 30) ntype 1 ;; r <- (n <- nt_make (V 31) ntype ;; r <- (i <- ix_make (V 32) ntype ;; ps <- mapM (ce_particle_blocks bm d n i) (seqZ 1 (Z.to_nat ntype)) ;; Ok (i, ps)) ;; Ok (n, r)) ;; Ok (pt, r)) ;; Ok (Some o) else Ok None)
    (fun bm x => if 0 <? ntype then exists o, x = Some o /\ Px bm o else x = None)).
  { apply (decides_when (0 <? ntype) _ _ Px). intros K. assert (K' : 0 < ntype) by lia.
    pose proof (Ins _ _ (P30 K' 30 ltac:(lia))) as I30. pose proof (Ins _ _ (P30 K' 31 ltac:(lia))) as I31. pose proof (Ins _ _ (P30 K' 32 ltac:(lia))) as I32.
    apply (decides_pair _ _ _ _ _ (fun bm (o : ntro * (ntro * list particle)) => (fst o = Ntro (V 31) ntype /\ ntype <= size (V 31)) /\ fst (snd o) = Ntro (V 32) ntype
        /\ (length (snd (snd o)) = Z.to_nat ntype /\ forall p, 1 <= p <= ntype -> exists x, nth_error (snd (snd o)) (Z.to_nat (p - 1)) = Some x /\ Pp p bm x))
      (array_decides (V 30) ntype 1 I30 ltac:(lia) ltac:(lia) ltac:(lia))).
    apply (decides_bind (ntype <= size (V 31)) (True /\ forall p, 1 <= p <= ntype -> Qp p) (fun _ => nt_make (V 31) ntype)
      (fun bm n => i <- ix_make (V 32) ntype ;; ps <- mapM (ce_particle_blocks bm d n i) (seqZ 1 (Z.to_nat ntype)) ;; Ok (i, ps))
      (fun _ n => n = Ntro (V 31) ntype /\ ntype <= size (V 31))
      (fun bm r => fst r = Ntro (V 32) ntype /\ (length (snd r) = Z.to_nat ntype /\ forall p, 1 <= p <= ntype -> exists x, nth_error (snd r) (Z.to_nat (p - 1)) = Some x /\ Pp p bm x))); [lia| |].
    - unfold nt_make. split.
      + intros L _. rewrite verify_enough by (assumption || lia). cbn [bind]. eexists. split; [reflexivity|]. split; [reflexivity|exact L].
      + intros L. rewrite verify_short by (assumption || lia). eexists. reflexivity.
    - intros bm0 n [-> Sz].
      apply (decides_bind True (forall p, 1 <= p <= ntype -> Qp p) (fun _ => ix_make (V 32) ntype) (fun bm i => mapM (ce_particle_blocks bm d (Ntro (V 31) ntype) i) (seqZ 1 (Z.to_nat ntype)))
        (fun _ i => i = Ntro (V 32) ntype)
        (fun bm ps => length ps = Z.to_nat ntype /\ forall p, 1 <= p <= ntype -> exists x, nth_error ps (Z.to_nat (p - 1)) = Some x /\ Pp p bm x)); [left; exact Logic.I| |].
      + split; [|intros N; exfalso; apply N; exact Logic.I]. intros _ bm. unfold ix_make. rewrite u32_small by lia.
        rewrite verify_enough; [cbn [bind]; eexists; split; reflexivity|exact I32|].
        destruct (P30 K' 32 ltac:(lia)) as (s & _ & _ & _ & Y1 & _ & Y2). unfold block_end in Y2. cbv zeta in Y2. change (32 =? 32) with true in Y2. cbv iota in Y2.
        rewrite (nth_error_nth _ _ 0 N7) in Y2. unfold size. lia.
      + intros bm1 i ->. apply (mapM_decides (fun bm => ce_particle_blocks bm d (Ntro (V 31) ntype) (Ntro (V 32) ntype)) ntype Qp (fun bm p x => Pp p bm x)). intros p Hp. exact (Dq K' Sz p Hp). }
  assert (D0 : decides (In (last zaid "0"%char) ["c"; "h"; "o"; "r"; "s"; "a"]%char) (fun _ => verifyType ["c"; "h"; "o"; "r"; "s"; "a"]%char zaid) (fun _ _ => True)).
  { assert (Vt : verifyType ["c"; "h"; "o"; "r"; "s"; "a"]%char zaid = throw_if (negb (existsb (Ascii.eqb (last zaid "0"%char)) ["c"; "h"; "o"; "r"; "s"; "a"]%char)) StdException).
    { unfold verifyType. destruct (exists_last Hz) as (l & c & ->). rewrite rev_unit, last_last. reflexivity. }
    rewrite Vt. destruct (existsb (Ascii.eqb (last zaid "0"%char)) ["c"; "h"; "o"; "r"; "s"; "a"]%char) eqn:Y.
    - split; [intros _ bm; exists tt; split; [reflexivity|exact Logic.I]|]. intros N. exfalso. apply N. apply existsb_exists in Y as (x & X1 & X2). apply Ascii.eqb_eq in X2. subst x. exact X1.
    - split; [|intros _; eexists; reflexivity]. intros X. exfalso. assert (existsb (Ascii.eqb (last zaid "0"%char)) ["c"; "h"; "o"; "r"; "s"; "a"]%char = true); [|congruence].
      apply existsb_exists. exists (last zaid "0"%char). split; [exact X|apply Ascii.eqb_refl]. }
  assert (Dec : ntr <= size (V 5) \/ ~ ntr <= size (V 5)) by lia.
  pose proof (decides_bind _ _ _ _ _ _ Dec D5 (fun bm t Pt => decides_pair _ _ _ _ _ _ Dsig (decides_pair _ _ _ _ _ _ Dang
     (decides_pair _ _ _ _ _ _ (Ddlw t (proj1 Pt) (proj1 (proj2 Pt)) (fun i Hi => proj1 (proj2 (proj2 Pt) i Hi))) (decides_pair _ _ _ _ _ _ Dp (decides_pair _ _ _ _ _ _ Du (decides_pair _ _ _ _ _ _ Dn (decides_pair _ _ _ _ _ _ De Ds)))))))) as D6.
  pose proof (decides_pair _ _ _ _ _ _ D0 (decides_pair _ _ _ _ _ _ D1 (decides_pair _ _ _ _ _ _ D2 (decides_pair _ _ _ _ _ _ D3 (decides_pair _ _ _ _ _ _ D4 D6))))) as T.
  clear D0 D1 D2 D3 D4 D5 D6 Dp Dnu Dsig Dang Ddlw Dph Du Dn De Ds Dunr Ddnu Ddel Dsec Dq.
  refine (decides_same _ _ _ _ _ _ _ (decides_map _ _ _ (fun p => let '(_, (esz, (n, (mt, (lq, (ty, (sg, (an, (dl, (ph, (un, (dn, (de, se)))))))))))) ) := p in
    CeTable zaid d esz n mt lq ty sg an dl (option_map fst ph) (option_map (fun p => fst (snd p)) ph) (option_map (fun p => fst (snd (snd p))) ph)
      (option_map (fun p => fst (snd (snd (snd p)))) ph) (option_map (fun p => fst (snd (snd (snd (snd p))))) ph) (option_map (fun p => snd (snd (snd (snd (snd p))))) ph)
      un dn (option_map fst de) (option_map snd de) (option_map fst se) (option_map (fun p => fst (snd p)) se) (option_map (fun p => fst (snd (snd p))) se) (match se with Some p => snd (snd (snd p)) | None => [] end)) _ _ T)); clear T.
  - intros bm. unfold ce_make. destruct (verifyType _ _) as [u|x|]; cbn [bind]; try reflexivity.
    unfold setSZA, d_NXS. rewrite (fetch_at bm (d_nxs d) 9 s9) by (assumption || lia). cbn [bind]. destruct (Z.eqb_spec s9 0) as [X|_]; [contradiction|]. cbn [bind andb].
    unfold ce_generateBlocks, ce_N, d_NXS, d_JXS.
    rewrite (fetch_at bm (d_nxs d) 3 nes), (fetch_at bm (d_nxs d) 4 ntr), (fetch_at bm (d_nxs d) 5 nr), (fetch_at bm (d_nxs d) 6 ntrp), (fetch_at bm (d_nxs d) 7 ntype), (fetch_at bm (d_nxs d) 8 npcr) by (assumption || lia).
    rewrite (fetch_at bm (d_jxs d) 2 jnu), (fetch_at bm (d_jxs d) 23 junr), (fetch_at bm (d_jxs d) 24 jdnu) by (assumption || lia). cbn [bind].
    rewrite !u32_small by lia.
    assert (O : forall A k (f : view -> outcome A) v, 1 <= k <= 32 -> (k = 32 -> 0 < ntype) -> block_at d k v -> one bm d ntype k f = f v).
    { intros A k f v Hk Kn Pk. unfold one. destruct (Bl bm k v Hk Kn Pk) as [-> E]. cbn [bind fst snd]. rewrite E. reflexivity. }
    assert (O2 : forall A k (f : view -> Z -> outcome A), 1 <= k <= 30 -> block_at d k (V k) -> block_at d (k + 1) (V (k + 1)) -> two bm d ntype k f = f (with_locators d V k) (vbeg (V (k + 1)))).
    { intros A k f Hk Pk Pk'. unfold two. destruct (Bl bm k (V k) ltac:(lia) ltac:(lia) Pk) as [-> _]. destruct (Bl bm (k + 1) (V (k + 1)) ltac:(lia) ltac:(lia) Pk') as [-> _]. reflexivity. }
    rewrite (O _ 1 _ (V 1)) by (assumption || lia). unfold esz_make, mt_make, lq_make. destruct (ad_make (V 1) nes 5); cbn [bind]; try reflexivity.
    assert (E2 : opt_block (0 <? jnu) (one bm d ntype 2 (nu_make bm)) = (if 0 <? jnu then o <- nu_make bm (V 2) ;; Ok (Some o) else Ok None)).
    { unfold opt_block. destruct (Z.ltb_spec 0 jnu) as [K|K]; [|reflexivity]. rewrite (O _ 2 _ (V 2)) by (auto || lia). reflexivity. }
    rewrite E2. destruct (if 0 <? jnu then _ else _); cbn [bind]; try reflexivity.
    rewrite (O _ 3 _ (V 3)) by (try apply P3; lia). destruct (ad_make (V 3) ntr 1); cbn [bind]; try reflexivity.
    rewrite (O _ 4 _ (V 4)) by (try apply P3; lia). destruct (ad_make (V 4) ntr 1); cbn [bind]; try reflexivity.
    rewrite (O _ 5 _ (V 5)) by (try apply P3; lia). destruct (ty_make bm (V 5) ntr) as [ty|x|]; cbn [bind]; try reflexivity.
    rewrite (O2 _ 6) by (try apply P3; lia). change (6 + 1) with 7. destruct (bl_make _ _ _ _ _ _); cbn [bind]; try reflexivity.
    rewrite (O2 _ 8) by (try apply P3; lia). change (8 + 1) with 9. destruct (ab_make _ _ _ _ _); cbn [bind]; try reflexivity.
    rewrite (O2 _ 10) by (try apply P3; lia). change (10 + 1) with 11. destruct (dl_make _ _ _ _ _); cbn [bind]; try reflexivity.
    assert (Eu : opt_block (0 <? junr) (one bm d ntype 23 (un_make bm)) = (if 0 <? junr then o <- un_make bm (V 23) ;; Ok (Some o) else Ok None)).
    { unfold opt_block. destruct (Z.ltb_spec 0 junr) as [K|K]; [|reflexivity]. rewrite (O _ 23 _ (V 23)) by (auto || lia). reflexivity. }
    assert (En : opt_block (0 <? jdnu) (one bm d ntype 24 (nu_make bm)) = (if 0 <? jdnu then o <- nu_make bm (V 24) ;; Ok (Some o) else Ok None)).
    { unfold opt_block. destruct (Z.ltb_spec 0 jdnu) as [K|K]; [|reflexivity]. rewrite (O _ 24 _ (V 24)) by (auto || lia). reflexivity. }
    rewrite Eu, En. clear Eu En.
    destruct (Z.ltb_spec 0 ntrp) as [K|K]; cbn [bind opt_block];
      [assert (P := P12 K);
       rewrite (O _ 12 _ (V 12)) by (try apply P; lia); destruct (ad_make (V 12) nes 1); cbn [bind]; try reflexivity;
       rewrite (O _ 13 _ (V 13)) by (try apply P; lia); destruct (ad_make (V 13) ntrp 1); cbn [bind]; try reflexivity;
       rewrite (O2 _ 14) by (try apply P; lia); change (14 + 1) with 15; destruct (bl_make _ _ _ _ _ _); cbn [bind]; try reflexivity;
       rewrite (O2 _ 16) by (try apply P; lia); change (16 + 1) with 17; destruct (ab_make _ _ _ _ _); cbn [bind]; try reflexivity;
       rewrite (O2 _ 18) by (try apply P; lia); change (18 + 1) with 19; destruct (dh_make _ _ _ _ _); cbn [bind]; try reflexivity;
       rewrite (O _ 20 _ (V 20)) by (try apply P; lia); destruct (yp_make bm (V 20)); cbn [bind]; try reflexivity|];
    (destruct (if 0 <? junr then _ else _); cbn [bind]; try reflexivity;
     destruct (if 0 <? jdnu then _ else _); cbn [bind]; try reflexivity;
     destruct (Z.ltb_spec 0 npcr) as [Kc|Kc]; cbn [bind opt_block];
      [assert (Pc := P25 Kc);
       rewrite (O _ 25 _ (V 25)) by (try apply Pc; lia); destruct (bd_make bm (V 25) npcr); cbn [bind]; try reflexivity;
       rewrite (O2 _ 26) by (try apply Pc; lia); change (26 + 1) with 27; destruct (dh_make bm (with_locators d V 26) _ _ _); cbn [bind]; try reflexivity|];
      (destruct (Z.ltb_spec 0 ntype) as [Ks|Ks]; cbn [bind]; [|reflexivity];
       assert (Ps := P30 Ks);
       rewrite (O _ 30 _ (V 30)) by (try apply Ps; lia); destruct (ad_make (V 30) ntype 1); cbn [bind]; try reflexivity;
       rewrite (O _ 31 _ (V 31)) by (try apply Ps; lia); destruct (nt_make (V 31) ntype); cbn [bind]; try reflexivity;
       rewrite (O _ 32 _ (V 32)) by (try apply Ps; lia); destruct (ix_make (V 32) ntype); cbn [bind]; try reflexivity;
       destruct (mapM _ _); cbn [bind]; reflexivity)).
  - unfold Qp. rewrite !Z.ltb_lt, !Z.mul_1_r. tauto.
  - intros bm (u & esz & n & mt & lq & ty & sg & an & dl & ph & un & dn & de & se). cbn [fst snd].
    intros (_ & A1 & A2 & A3 & A4 & (A5 & _ & A6) & A7 & A8 & A9 & A10 & A11 & A12 & A13 & A14).
    cbn [ct_data ct_esz ct_nu ct_mtr ct_lqr ct_tyr ct_sig ct_ang ct_dlw ct_gpd ct_mtrp ct_sigp ct_andp ct_dlwp ct_yp ct_unr ct_dnu ct_bdd ct_dned ct_ptype ct_ntro ct_ixs ct_particles].
    split; [reflexivity|]. split; [exact A1|]. split; [exact A2|]. split; [exact A3|]. split; [exact A4|]. split; [split; [exact A5|intros i Hi; exact (proj1 (proj2 (A6 i Hi)))]|].
    split; [exact A7|]. split; [exact A8|]. split; [exact A9|]. split.
    { destruct (0 <? ntrp); [|subst ph; repeat split]. destruct A10 as ((g & r & s & a & e & y) & -> & X). cbn [option_map fst snd] in *. exists g, r, s, a, e, y. repeat (split; [reflexivity|]). exact X. }
    split; [exact A11|]. split; [exact A12|]. split.
    { destruct (0 <? npcr); [|subst de; split; reflexivity]. destruct A13 as ((b & e) & -> & X). cbn [option_map fst snd] in *. exists b, e. repeat (split; [reflexivity|]). exact X. }
    destruct (Z.ltb_spec 0 ntype) as [K|K]; [|subst se; repeat split]. destruct A14 as ((pt & nt & ix & l) & -> & X1 & (X2 & _) & X3 & L & R). cbn [option_map fst snd] in *. subst nt ix.
    split; [exists pt; split; [reflexivity|exact X1]|]. split; [reflexivity|]. split; [reflexivity|]. split; [unfold len; lia|]. intros p Hp. destruct (R p Hp) as (x & Nx & Yx). exists x. split; [|exact Yx].
    unfold ce_at, at_. cbn [ct_particles]. rewrite u64_small by lia. rewrite Nx. reflexivity.
Qed.
Print Assumptions C50_continuous_table.

(** ** A case *)

(** one energy, two reactions with level scattering, isotropic angular distributions *)
Definition two_levels : tdata :=
  TData (zeros 16) (dzeros 16) ([50; 1001; 1; 2; 2; 0; 0; 0; 1; 1; 1] ++ zeros 5)
    ([1; 0; 6; 8; 10; 12; 14; 20; 23; 23; 25] ++ zeros 10 ++ [50] ++ zeros 10)
    (map dbl ([1; 2; 3; 4; 5;  51; 52;  -1; -2;  1; -112;  1; 4;  1; 1; 7; 1; 1; 8;  0; 0; 0] ++ [1; 16;   0; 3; 10; 0; 2; 1; 20; 1; 1; 5; 7;   0; 1; 4; 8;   0; 3; 25; 0; 2; 3; 20; 1; 1; 6; 9])).
Definition two_levels_blocks (k : Z) : view :=
  let start := nth (Z.to_nat (k - 1)) (d_jxs two_levels) 0 in View (d_xss two_levels) (start - 1) (block_end two_levels k start).
Example continuous_table_met : let V := two_levels_blocks in
  continuous_states two_levels V 1 2 2 0 0 0 0 0 0
  /\ (forall i, 1 <= i <= 2 -> states (V 5) i (if i =? 1 then 1 else -112))
  /\ (forall bm, exists o, bl_make bm (sig_generateData bm) (with_locators two_levels V 6) (vbeg (V 7)) 2 true = Ok o)
  /\ (forall bm, exists o, ab_make bm (with_locators two_levels V 8) (vbeg (V 9)) 2 true = Ok o)
  /\ (forall bm, exists o, dl_make bm (with_locators two_levels V 10) (vbeg (V 11)) (Tyr (V 5) 2 [Laboratory; CentreOfMass] [1; 112]) 2 = Ok o)
  /\ size (V 1) = 5 /\ size (V 3) = 2 /\ size (V 4) = 2 /\ size (V 5) = 2
  /\ (forall bm, exists t, ce_make bm ["1"; "c"]%char two_levels = Ok t)
  /\ exists x, ce_make Debug ["1"; "c"]%char (TData (zeros 16) (dzeros 16) (d_nxs two_levels) (map (fun x => if x =? 50 then 49 else x) (d_jxs two_levels)) (firstn 49 (d_xss two_levels))) = Throw x.
Proof.
  cbv zeta.
  assert (B : forall k, In k [1; 3; 4; 5; 6; 7; 8; 9; 10; 11] -> block_at two_levels k (two_levels_blocks k)).
  { intros k H. cbn [In] in H. repeat destruct H as [<- | H]; try contradiction H;
      (eexists; split; [reflexivity|]; split; [split; vm_compute; discriminate|]; split; [reflexivity|]; split; [reflexivity|]; split; [split; vm_compute; discriminate|]; reflexivity). }
  split.
  { unfold continuous_states. split; [reflexivity|]. split; [reflexivity|]. split; [vm_compute; reflexivity|].
    split. { intros x H. cbn in H. repeat destruct H as [<- | H]; try (split; [discriminate|vm_compute; reflexivity]). contradiction. }
    do 6 (split; [reflexivity|]). split; [exists 1; split; [reflexivity|discriminate]|]. do 3 (split; [reflexivity|]). do 6 (split; [lia|]).
    split; [apply B; cbn; tauto|]. split; [discriminate|]. split; [|repeat split; discriminate].
    intros k Hk. apply B. assert (k = 3 \/ k = 4 \/ k = 5 \/ k = 6 \/ k = 7 \/ k = 8 \/ k = 9 \/ k = 10 \/ k = 11) by lia. cbn [In]. lia. }
  split; [intros i Hi; assert (E : i = 1 \/ i = 2) by lia; destruct E as [-> | ->]; stated|].
  split; [intros [|]; eexists; vm_compute; reflexivity|]. split; [intros [|]; eexists; vm_compute; reflexivity|]. split; [intros [|]; eexists; vm_compute; reflexivity|].
  do 4 (split; [reflexivity|]). split; [intros [|]; eexists; vm_compute; reflexivity|]. eexists. vm_compute. reflexivity.
Qed.

(** The same data with probability tables, delayed neutrons and one secondary particle *)
Definition full_table : tdata :=
  TData (zeros 16) (dzeros 16) ([123; 1001; 1; 2; 2; 0; 1; 1; 1; 1; 1] ++ zeros 5)
    ([1; 0; 6; 8; 10; 12; 14; 20; 23; 23; 25] ++ zeros 10 ++ [83; 51; 64; 67; 72; 73; 0; 0; 84; 85; 86])
    (d_xss two_levels ++ map dbl ([1; 1; 2; 0; 0; 0; 9; 1; 2; 3; 4; 5; 6] ++ [1; 1; 3] ++ [2; 0; 1; 5; 1] ++ 1 :: [0; 3; 10; 0; 2; 1; 20; 1; 1; 5; 7] ++
       [1] ++ [1] ++ [96; 100; 101; 102; 103; 109; 110; 110; 111; 122] ++ [1; 1; 5; 6] ++ [2] ++ [1] ++ [1] ++ [12; 2; 0; 1; 1; 2] ++ [0] ++ [1] ++ [0; 3; 10; 0; 2; 1; 20; 1; 1; 5; 7] ++ [1; 2])).
Definition full_table_blocks (k : Z) : view :=
  let start := nth (Z.to_nat (k - 1)) (d_jxs full_table) 0 in View (d_xss full_table) (start - 1) (block_end full_table k start).
Definition full_table_pieces (_ k : Z) : view :=
  let pos j := nth (Z.to_nat j) [0; 96; 100; 101; 102; 103; 109; 110; 110; 111; 122; 124] 0 in View (d_xss full_table) (pos k - 1) (pos (k + 1) - 1).
Example continuous_table_particles_met : let V := full_table_blocks in let W := full_table_pieces in
  continuous_states full_table V 1 2 2 0 0 51 64 1 1
  /\ (forall bm, exists o, un_make bm (V 23) = Ok o) /\ (forall bm, exists o, nu_make bm (V 24) = Ok o) /\ (forall bm, exists o, bd_make bm (V 25) 1 = Ok o)
  /\ (forall bm, exists o, dh_make bm (with_locators full_table V 26) (vbeg (V 27)) 1 None = Ok o)
  /\ size (V 30) = 1 /\ size (V 31) = 1 /\ (forall k, 1 <= k <= 10 -> piece_at full_table (V 32) 10 1 k (W 1 k)) /\ states (V 31) 1 1 /\ states (W 1 3) 1 1
  /\ (forall bm, exists o, hpd_make bm (W 1 1) = Ok o) /\ size (W 1 2) = 1 /\ size (W 1 3) = 1
  /\ (forall bm, exists o, bl_make bm (sigh_generateData bm) (with_pieces full_table W 1 4) (vbeg (W 1 5)) 1 true = Ok o)
  /\ (forall bm, exists o, ab_make bm (with_pieces full_table W 1 6) (vbeg (W 1 7)) 1 false = Ok o)
  /\ (forall bm, exists o, dh_make bm (with_pieces full_table W 1 8) (vbeg (W 1 9)) 1 (Some (Tyr (W 1 3) 1 [Laboratory] [1])) = Ok o)
  /\ (forall bm, exists o, yp_make bm (W 1 10) = Ok o)
  /\ (forall bm, exists t, ce_make bm ["1"; "c"]%char full_table = Ok t)
  /\ exists x, ce_make Debug ["1"; "c"]%char (TData (zeros 16) (dzeros 16) (d_nxs full_table) (map (fun x => if x =? 84 then 85 else x) (d_jxs full_table)) (d_xss full_table)) = Throw x.
Proof.
  cbv zeta.
  assert (B : forall k, In k [1; 3; 4; 5; 6; 7; 8; 9; 10; 11; 23; 24; 25; 26; 27; 30; 31; 32] -> block_at full_table k (full_table_blocks k)).
  { intros k H. cbn [In] in H. repeat destruct H as [<- | H]; try contradiction H;
      (eexists; split; [reflexivity|]; split; [split; vm_compute; discriminate|]; split; [reflexivity|]; split; [reflexivity|]; split; [split; vm_compute; discriminate|]; reflexivity). }
  split.
  { unfold continuous_states. split; [reflexivity|]. split; [reflexivity|]. split; [vm_compute; reflexivity|].
    split. { intros x H. cbn in H. repeat destruct H as [<- | H]; try (split; [discriminate|vm_compute; reflexivity]). contradiction. }
    do 6 (split; [reflexivity|]). split; [exists 1; split; [reflexivity|discriminate]|]. do 3 (split; [reflexivity|]). do 6 (split; [lia|]).
    split; [apply B; cbn; tauto|]. split; [discriminate|]. split.
    { intros k Hk. apply B. assert (k = 3 \/ k = 4 \/ k = 5 \/ k = 6 \/ k = 7 \/ k = 8 \/ k = 9 \/ k = 10 \/ k = 11) by lia. cbn [In]. lia. }
    split; [discriminate|]. split; [intros _; apply B; cbn [In]; lia|]. split; [intros _; apply B; cbn [In]; lia|].
    split; intros _ k Hk; apply B; cbn [In]; lia. }
  do 4 (split; [intros [|]; eexists; vm_compute; reflexivity|]). split; [reflexivity|]. split; [reflexivity|].
  split.
  { intros k Hk. assert (H : In k [1; 2; 3; 4; 5; 6; 7; 8; 9; 10]) by (cbn [In]; lia). clear Hk. cbn [In] in H.
    repeat destruct H as [<- | H]; try contradiction H;
      match goal with |- piece_at _ _ _ _ ?k _ => exists (nth (Z.to_nat k) [0; 96; 100; 101; 102; 103; 109; 110; 110; 111; 122] 0) end;
      (split; [stated|]; split; [split; vm_compute; discriminate|]; split; [reflexivity|]; split; [reflexivity|]; split; [split; vm_compute; discriminate|]; vm_compute; reflexivity). }
  split; [stated|]. split; [stated|]. split; [intros [|]; eexists; vm_compute; reflexivity|]. do 2 (split; [reflexivity|]).
  do 5 (split; [intros [|]; eexists; vm_compute; reflexivity|]). eexists. vm_compute. reflexivity.
Qed.

(** The end of the conventional data, JXS(22), is not compared with the data that are there: with the last word missing the table is accepted, and
    reading the last energy distribution leaves the vector, also in Debug. *)
Theorem C50_end_of_data_refuted : let d := TData (zeros 16) (dzeros 16) (d_nxs two_levels) (d_jxs two_levels) (firstn 49 (d_xss two_levels)) in
  let second := t <- ce_make Debug ["1"; "c"]%char d ;; dl_distribution Debug (ct_dlw t) 2 in
  (exists o, second = Ok o) /\ (o <- second ;; match o with Single (OLevel o) => two_C2 Debug o | _ => Ok (dbl 0) end) = UB.
Proof. cbv zeta. split; [eexists; vm_compute; reflexivity|vm_compute; reflexivity]. Qed.
Print Assumptions C50_end_of_data_refuted.
