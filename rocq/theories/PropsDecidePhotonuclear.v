(** C50, continued: photonuclear tables, with the blocks of their secondary particles. *)
From Coq Require Import ZArith Bool List Lia Ascii SpecFloat.
From Coq Require Import ZifyBool ZifyNat.
From Verif Require Import PropLemmasBasic Truncated NuBlock ReactionNumbers AtomicBlocks ElectronBlocks ThermalBlocks Accepted Decide PropsDecide DecideMore PropsDecideMore TableData DosimetryTable PropsDecideTables PropsDecideThermal PropsDecideAtomic DlwBlock DecideEnergy PropsDecideEnergy PropsDecideContinuous PhotonuclearTable.
Import ListNotations.
Open Scope Z_scope.

Definition photonuclear_states (d : tdata) (V : Z -> view) (nes ntr ntype j4 : Z) : Prop :=
  len (d_nxs d) = 16 /\ len (d_jxs d) = 32 /\ len (d_xss d) < 2 ^ 31 - 1 /\ (forall x, In x (d_jxs d) -> 0 <= x < 2 ^ 31)
  /\ nth_error (d_nxs d) 2 = Some nes /\ nth_error (d_nxs d) 3 = Some ntr /\ nth_error (d_nxs d) 4 = Some ntype /\ nth_error (d_jxs d) 3 = Some j4
  /\ (exists s, nth_error (d_nxs d) 8 = Some s /\ s <> 0)
  /\ 0 <= nes < 2 ^ 29 /\ 0 <= ntr < 2 ^ 29 /\ 0 <= ntype < 2 ^ 27
  /\ placed d 1 (V 1) /\ (forall k, 6 <= k <= 9 -> placed d k (V k)) /\ vbeg (V 1) <= vbeg (V 6) /\ vbeg (V 8) <= vend (V 9) /\ (0 < ntype -> placed d 10 (V 10)).

(** A photonuclear table whose blocks begin where the JXS array, and those of the secondary particles where IXS says, all inside the data: it is accepted
    exactly when its ZAID ends in "u" and each of its blocks is accepted, on the words between its positions.  [j4] is JXS(4), the position of the elastic cross
    sections; [np p] is the number of reactions of particle [p], [m p i] word [i] of its TYRH block.  For each block made of parts (SIG, PXS, PHN, SIGH, ANDH,
    DLWH) [Q] is the condition under which it is accepted and [P] what it shows, as in C50_block_SIG, C50_cross_sections, C50_heating, C50_block_SIGH,
    C50_block_AND and C50_block_DLWH. *)
Theorem C50_photonuclear_table zaid d V nes ntr ntype j4 (W : Z -> Z -> view) (np : Z -> Z) (m : Z -> Z -> Z)
  (Qsig : Prop) (Qpxs Qphn Qsigh Qandh Qdlwh : Z -> Prop) (Psig : build -> blockWithLocators view -> Prop) (Ppxs Pphn : Z -> build -> view -> Prop)
  (Psigh : Z -> build -> blockWithLocators prefixedTabulated -> Prop) (Pandh : Z -> build -> angularBlock -> Prop) (Pdlwh : Z -> build -> dlwh -> Prop) :
  zaid <> [] -> photonuclear_states d V nes ntr ntype j4 ->
  let eszu := View (d_xss d) (vbeg (V 1)) (vbeg (V 6)) in
  let columns := if j4 =? 0 then 3 else 4 in
  decides Qsig (fun bm => bl_make bm (sig_generateData bm) (View (d_xss d) (vbeg (V 8)) (vend (V 9))) (vbeg (V 9)) ntr true) Psig ->
  (0 < ntype -> 12 * ntype <= size (V 10) -> forall p, 1 <= p <= ntype ->
     (forall k, 3 <= k <= 12 -> piece_at d (V 10) 12 p k (W p k)) /\ states (V 10) ((p - 1) * 12 + 2) (np p) /\ 0 <= np p < 2 ^ 29
     /\ (forall i, 1 <= i <= np p -> states (W p 6) i (m p i) /\ - 2 ^ 31 < m p i < 2 ^ 31)
     /\ decides (Qpxs p) (fun bm => xs_make bm (W p 3)) (Ppxs p)
     /\ decides (Qphn p) (fun bm => xs_make bm (W p 4)) (Pphn p)
     /\ decides (Qsigh p) (fun bm => bl_make bm (sigh_generateData bm) (with_pieces d W p 7) (vbeg (W p 8)) (np p) true) (Psigh p)
     /\ decides (Qandh p) (fun bm => ab_make bm (with_pieces d W p 9) (vbeg (W p 10)) (np p) false) (Pandh p)
     /\ (forall t, ty_ntr t = np p -> len (ty_frames t) = np p -> decides (Qdlwh p) (fun bm => dh_make bm (with_pieces d W p 11) (vbeg (W p 12)) (np p) (Some t)) (Pdlwh p))) ->
  decides
    (last zaid "0"%char = "u"%char /\ nes * columns <= size eszu /\ ntr <= size (V 6) /\ ntr <= size (V 7) /\ Qsig
     /\ (0 < ntype -> 12 * ntype <= size (V 10) /\ forall p, 1 <= p <= ntype -> Qpxs p /\ Qphn p /\ np p <= size (W p 5) /\ np p <= size (W p 6) /\ Qsigh p /\ Qandh p /\ Qdlwh p))
    (fun bm => pu_make bm zaid d)
    (fun bm t => ut_data t = d /\ arrays bm nes columns (ut_eszu t) /\ arrays bm ntr 1 (ut_mtr t) /\ arrays bm ntr 1 (ut_lqr t) /\ Psig bm (ut_sig t)
       /\ (if 0 <? ntype then ut_ixs t = Some (Ntro (V 10) ntype) /\ len (ut_particles t) = ntype /\ forall p, 1 <= p <= ntype -> exists x, pu_at t p = Ok x
             /\ Ppxs p bm (up_pxs x) /\ Pphn p bm (up_phn x) /\ arrays bm (np p) 1 (up_mtrh x) /\ ty_NTR (up_tyrh x) = np p
             /\ (forall i, 1 <= i <= np p -> ty_mult bm (up_tyrh x) i = Ok (Z.abs (m p i)))
             /\ Psigh p bm (up_sigh x) /\ Pandh p bm (up_andh x) /\ Pdlwh p bm (up_dlwh x)
           else ut_ixs t = None /\ ut_particles t = [])).
Proof.
  intros Hz (Ln & Lj & Lx & Hj & N3 & N4 & N5 & J4 & (s9 & N9 & S9) & B1 & B2 & B3 & P1 & P6 & U1 & U2 & P10) eszu columns Dsig Dp.
  assert (Lx' : len (d_xss d) < 2 ^ 31) by lia.
  assert (Ins := fun k v => placed_inside d Lx' Hj k v). assert (Bl := fun bm k v => placed_block d Lj Hj bm k v).
  assert (Ie : inside eszu).
  { pose proof (Ins _ _ P1) as [(E1 & E2 & E3) E4]. pose proof (Ins _ _ (P6 6 ltac:(lia))) as [(F1 & F2 & F3) F4].
    destruct (P6 6 ltac:(lia)) as (? & _ & _ & _ & _ & Y & _). unfold inside, framed, eszu, max_words in *. cbn. lia. }
  assert (Hc : 0 <= columns < 2 ^ 3) by (unfold columns; destruct (j4 =? 0); lia).
  assert (Hc' : nes * columns < 2 ^ 32) by (unfold columns; destruct (j4 =? 0); lia).
  pose proof (array_decides eszu nes columns Ie ltac:(lia) ltac:(lia) Hc') as D1.
  pose proof (array_decides (V 6) ntr 1 (Ins _ _ (P6 6 ltac:(lia))) ltac:(lia) ltac:(lia) ltac:(lia)) as D6.
  pose proof (array_decides (V 7) ntr 1 (Ins _ _ (P6 7 ltac:(lia))) ltac:(lia) ltac:(lia) ltac:(lia)) as D7.
  assert (D0 : decides (last zaid "0"%char = "u"%char) (fun _ => verifyType ["u"%char] zaid) (fun _ _ => True)).
  { assert (Vt : verifyType ["u"%char] zaid = throw_if (negb (Ascii.eqb (last zaid "0"%char) "u")) StdException).
    { unfold verifyType. destruct (exists_last Hz) as (l & c & ->). rewrite rev_unit, last_last. cbn [existsb]. rewrite orb_false_r. reflexivity. }
    rewrite Vt. destruct (Ascii.eqb_spec (last zaid "0"%char) "u"%char) as [Y|Y]; split; try tauto.
    - intros _ bm. exists tt. split; [reflexivity|exact Logic.I].
    - intros _. eexists. reflexivity. }
  pose (Qp := fun p => Qpxs p /\ Qphn p /\ np p <= size (W p 5) /\ np p <= size (W p 6) /\ Qsigh p /\ Qandh p /\ Qdlwh p).
  pose (Pp := fun p bm x => Ppxs p bm (up_pxs x) /\ Pphn p bm (up_phn x) /\ arrays bm (np p) 1 (up_mtrh x) /\ ty_NTR (up_tyrh x) = np p
             /\ (forall i, 1 <= i <= np p -> ty_mult bm (up_tyrh x) i = Ok (Z.abs (m p i)))
             /\ Psigh p bm (up_sigh x) /\ Pandh p bm (up_andh x) /\ Pdlwh p bm (up_dlwh x)).
  assert (Dq : 0 < ntype -> 12 * ntype <= size (V 10) -> forall p, 1 <= p <= ntype -> decides (Qp p) (fun bm => pu_particle_blocks bm d (Ntro (V 10) ntype) p) (fun bm => Pp p bm)).
  { intros K Sz p Hp. destruct (Dp K Sz p Hp) as (Pc & Sn & Bn & Hm & E1 & E2 & E3 & E4 & E5). pose proof (Ins _ _ (P10 K)) as I10.
    assert (Bq : forall (bm : build) k, 3 <= k <= 12 -> pu_pblock bm d (Ntro (V 10) ntype) p k = Ok (vbeg (W p k), vend (W p k)) /\ tview d (vbeg (W p k)) (vend (W p k)) = W p k).
    { intros bm k Hk. destruct (piece_end d (V 10) 12 ntype p k (W p k) I10 Sz B3 ltac:(lia) Hp ltac:(lia) Lx (Pc k Hk)) as (s & Ss & Bs & _ & Et & Er). split; [|exact Et].
      unfold pu_pblock, iu_LLOC. cbn [nt_v]. rewrite (word_of_piece bm (V 10) 12 ntype p k s) by (assumption || lia). cbn [bind]. exact Er. }
    pose proof (array_decides (W p 5) (np p) 1 (piece_inside d (V 10) 12 _ _ _ Lx (Pc 5 ltac:(lia))) ltac:(lia) ltac:(lia) ltac:(lia)) as F5.
    pose proof (decides_needs _ _ _ _ (C50_block_TYR (W p 6) (np p) (m p) (piece_inside d (V 10) 12 _ _ _ Lx (Pc 6 ltac:(lia))) ltac:(lia) Hm)) as F6.
    assert (Dec : np p <= size (W p 6) \/ ~ np p <= size (W p 6)) by lia.
    pose proof (decides_bind _ _ _ _ _ _ Dec F6 (fun bm t Pt => decides_pair _ _ _ _ _ _ E3 (decides_pair _ _ _ _ _ _ E4 (E5 t (proj1 Pt) (proj1 (proj2 Pt)))))) as T.
    pose proof (decides_pair _ _ _ _ _ _ E1 (decides_pair _ _ _ _ _ _ E2 (decides_pair _ _ _ _ _ _ F5 T))) as T'. clear T.
    refine (decides_same _ _ _ _ _ _ _ (decides_map _ _ _ (fun x => let '(px, (ph, (mt, (ty, (si, (an, dl)))))) := x in PuPart px ph mt ty si an dl) _ _ T')); clear T'.
    - intros bm. unfold pu_particle_blocks. pose proof (Bq bm) as Bb.
      destruct (Bb 3 ltac:(lia)) as [-> X3]. cbn [bind fst snd]. rewrite X3. destruct (xs_make bm (W p 3)); cbn [bind]; try reflexivity.
      destruct (Bb 4 ltac:(lia)) as [-> X4]. cbn [bind fst snd]. rewrite X4. destruct (xs_make bm (W p 4)); cbn [bind]; try reflexivity.
      unfold iu_NP, iu_LLOC. cbn [nt_v]. rewrite (word_of_piece bm (V 10) 12 ntype p 2 (np p)) by (assumption || lia). cbn [bind]. rewrite u32_small by lia.
      destruct (Bb 5 ltac:(lia)) as [-> X5]. cbn [bind fst snd]. rewrite X5. unfold mt_make. destruct (ad_make (W p 5) (np p) 1); cbn [bind]; try reflexivity.
      destruct (Bb 6 ltac:(lia)) as [-> X6]. cbn [bind fst snd]. rewrite X6. destruct (ty_make bm (W p 6) (np p)) as [ty|x|]; cbn [bind]; try reflexivity.
      destruct (Bb 7 ltac:(lia)) as [-> _]. destruct (Bb 8 ltac:(lia)) as [-> _]. cbn [bind fst snd]. unfold tview, with_pieces.
      change (7 + 1) with 8. destruct (bl_make _ _ _ _ _ _); cbn [bind]; try reflexivity.
      destruct (Bb 9 ltac:(lia)) as [-> _]. destruct (Bb 10 ltac:(lia)) as [-> _]. cbn [bind fst snd]. change (9 + 1) with 10. destruct (ab_make _ _ _ _ _); cbn [bind]; try reflexivity.
      destruct (Bb 11 ltac:(lia)) as [-> _]. destruct (Bb 12 ltac:(lia)) as [-> _]. cbn [bind fst snd]. change (11 + 1) with 12. destruct (dh_make _ _ _ _ _); cbn [bind]; reflexivity.
    - unfold Qp. rewrite Z.mul_1_r. tauto.
    - intros bm (px & ph & mt & ty & si & an & dl). cbn [fst snd]. intros (A1 & A2 & A3 & (A4 & _ & A5) & A6 & A7 & A8). unfold Pp.
      cbn [up_pxs up_phn up_mtrh up_tyrh up_sigh up_andh up_dlwh]. split; [exact A1|]. split; [exact A2|]. split; [exact A3|]. split; [exact A4|].
      split; [intros i Hi; exact (proj1 (proj2 (A5 i Hi)))|]. split; [exact A6|]. split; [exact A7|exact A8]. }
  assert (Ds : decides (0 <? ntype = true -> 12 * ntype <= size (V 10) /\ forall p, 1 <= p <= ntype -> Qp p)
    (fun bm => if 0 <? ntype then o <- (i <- iu_make (V 10) ntype ;; ps <- mapM (pu_particle_blocks bm d i) (seqZ 1 (Z.to_nat ntype)) ;; Ok (i, ps)) ;; Ok (Some o) else Ok None)
    (fun bm x => if 0 <? ntype then exists o, x = Some o /\ (fst o = Ntro (V 10) ntype /\ 12 * ntype <= size (V 10)) /\ (length (snd o) = Z.to_nat ntype /\ forall p, 1 <= p <= ntype -> exists x, nth_error (snd o) (Z.to_nat (p - 1)) = Some x /\ Pp p bm x) else x = None)).
  { apply (decides_when (0 <? ntype) _ _ (fun bm (o : ntro * list puPart) => (fst o = Ntro (V 10) ntype /\ 12 * ntype <= size (V 10)) /\ (length (snd o) = Z.to_nat ntype /\ forall p, 1 <= p <= ntype -> exists x, nth_error (snd o) (Z.to_nat (p - 1)) = Some x /\ Pp p bm x))).
    intros K. assert (K' : 0 < ntype) by lia. pose proof (Ins _ _ (P10 K')) as I10.
    apply (decides_bind (12 * ntype <= size (V 10)) (forall p, 1 <= p <= ntype -> Qp p) (fun _ => iu_make (V 10) ntype) (fun bm i => mapM (pu_particle_blocks bm d i) (seqZ 1 (Z.to_nat ntype)))
      (fun _ i => i = Ntro (V 10) ntype /\ 12 * ntype <= size (V 10))
      (fun bm ps => length ps = Z.to_nat ntype /\ forall p, 1 <= p <= ntype -> exists x, nth_error ps (Z.to_nat (p - 1)) = Some x /\ Pp p bm x)); [lia| |].
    - unfold iu_make. rewrite u32_small by lia. split.
      + intros L _. rewrite verify_enough by (assumption || lia). cbn [bind]. eexists. split; [reflexivity|]. split; [reflexivity|exact L].
      + intros L. rewrite verify_short by (assumption || lia). eexists. reflexivity.
    - intros bm0 i [-> Sz]. apply (mapM_decides (fun bm => pu_particle_blocks bm d (Ntro (V 10) ntype)) ntype Qp (fun bm p x => Pp p bm x)). intros p Hp. exact (Dq K' Sz p Hp). }
  pose proof (decides_pair _ _ _ _ _ _ D0 (decides_pair _ _ _ _ _ _ D1 (decides_pair _ _ _ _ _ _ D6 (decides_pair _ _ _ _ _ _ D7 (decides_pair _ _ _ _ _ _ Dsig Ds))))) as T.
  clear D0 D1 D6 D7 Dsig Ds Dp Dq.
  refine (decides_same _ _ _ _ _ _ _ (decides_map _ _ _ (fun p => let '(_, (es, (mt, (lq, (sg, ps))))) := p in
    PuTable zaid d es mt lq sg (option_map fst ps) (match ps with Some ps => snd ps | None => [] end)) _ _ T)); clear T.
  - intros bm. unfold pu_make. destruct (verifyType _ _) as [u|x|]; cbn [bind]; try reflexivity.
    unfold setSZA, d_NXS. rewrite (fetch_at bm (d_nxs d) 9 s9) by (assumption || lia). cbn [bind]. destruct (Z.eqb_spec s9 0) as [X|_]; [contradiction|]. cbn [bind andb].
    unfold pu_generateBlocks, pu_NES, pu_NTR, pu_NTYPE, pu_N, d_NXS. unfold d_JXS at 1.
    rewrite (fetch_at bm (d_nxs d) 3 nes), (fetch_at bm (d_nxs d) 4 ntr), (fetch_at bm (d_nxs d) 5 ntype), (fetch_at bm (d_jxs d) 4 j4) by (assumption || lia). cbn [bind].
    rewrite !u32_small by lia.
    destruct (Bl bm 1 (V 1) ltac:(lia) P1) as [-> _]. destruct (Bl bm 6 (V 6) ltac:(lia) (P6 6 ltac:(lia))) as [-> E6]. destruct (Bl bm 7 (V 7) ltac:(lia) (P6 7 ltac:(lia))) as [-> E7].
    destruct (Bl bm 8 (V 8) ltac:(lia) (P6 8 ltac:(lia))) as [-> _]. destruct (Bl bm 9 (V 9) ltac:(lia) (P6 9 ltac:(lia))) as [-> _]. cbn [bind fst snd]. rewrite E6, E7.
    unfold eu_make, mt_make, lq_make. replace (if negb (j4 =? 0) then 4 else 3) with columns by (unfold columns; destruct (j4 =? 0); reflexivity). unfold tview at 1. fold eszu.
    destruct (ad_make eszu nes columns); cbn [bind]; try reflexivity. destruct (ad_make (V 6) ntr 1); cbn [bind]; try reflexivity. destruct (ad_make (V 7) ntr 1); cbn [bind]; try reflexivity.
    unfold tview at 1. destruct (bl_make _ _ _ _ _ _); cbn [bind]; try reflexivity.
    destruct (Z.ltb_spec 0 ntype) as [K|K]; cbn [bind]; [|reflexivity].
    destruct (Bl bm 10 (V 10) ltac:(lia) (P10 K)) as [-> E10]. cbn [bind fst snd]. rewrite E10. destruct (iu_make (V 10) ntype); cbn [bind]; try reflexivity.
    destruct (mapM _ _); cbn [bind]; reflexivity.
  - unfold Qp. rewrite !Z.ltb_lt, !Z.mul_1_r. tauto.
  - intros bm (u & es & mt & lq & sg & ps). cbn [fst snd]. intros (_ & A1 & A2 & A3 & A4 & A5). cbn [ut_data ut_eszu ut_mtr ut_lqr ut_sig ut_ixs ut_particles].
    split; [reflexivity|]. split; [exact A1|]. split; [exact A2|]. split; [exact A3|]. split; [exact A4|].
    destruct (Z.ltb_spec 0 ntype) as [K|K]; [|subst ps; split; reflexivity]. destruct A5 as ([i l] & -> & (E & _) & L & R). cbn [option_map fst snd] in *. subst i.
    split; [reflexivity|]. split; [unfold len; lia|]. intros p Hp. destruct (R p Hp) as (x & Nx & Px). exists x. split; [|exact Px].
    unfold pu_at, at_. cbn [ut_particles]. rewrite u64_small by lia. rewrite Nx. reflexivity.
Qed.
Print Assumptions C50_photonuclear_table.

(** ** A case *)

(** one energy, one reaction, one secondary particle (neutrons) with one reaction: an isotropic angular distribution and level scattering *)
Definition one_particle : tdata :=
  TData (zeros 16) (dzeros 16) ([49; 1001; 1; 1; 1; 2; 12; 0; 1; 1; 1] ++ zeros 5) ([1; 2; 2; 0; 3; 4; 5; 6; 7; 10; 22] ++ zeros 21)
    (map dbl ([1; 2; 3;  51;  -1;  1;  1; 1; 7;  1; 1; 22; 25; 28; 29; 30; 31; 37; 38; 38; 39;
               1; 1; 5;  1; 1; 6;  2;  1;  1;  12; 2; 0; 1; 1; 2;  0;  1] ++ [0; 3; 10; 0; 2; 1; 20; 1; 1; 5; 7])).
Definition one_particle_block (k : Z) : view :=
  let start := nth (Z.to_nat (k - 1)) (d_jxs one_particle) 0 in
  View (d_xss one_particle) (start - 1) (match find (fun x => start <=? x) (skipn (Z.to_nat k) (d_jxs one_particle)) with Some x => x - 1 | None => 49 end).
Definition one_particle_piece (_ k : Z) : view :=
  let pos j := nth (Z.to_nat j) [0; 1; 1; 22; 25; 28; 29; 30; 31; 37; 38; 38; 39; 50] 0 in View (d_xss one_particle) (pos k - 1) (pos (k + 1) - 1).
Example photonuclear_table_met : let V := one_particle_block in let W := one_particle_piece in
  photonuclear_states one_particle V 1 1 1 0
  /\ (forall k, 3 <= k <= 12 -> piece_at one_particle (V 10) 12 1 k (W 1 k)) /\ states (V 10) ((1 - 1) * 12 + 2) 1 /\ states (W 1 6) 1 1
  /\ size (V 10) = 12 * 1 /\ size (W 1 5) = 1 /\ size (W 1 6) = 1
  /\ (forall bm, exists o, bl_make bm (sig_generateData bm) (View (d_xss one_particle) (vbeg (V 8)) (vend (V 9))) (vbeg (V 9)) 1 true = Ok o)
  /\ (forall bm, exists o, xs_make bm (W 1 3) = Ok o) /\ (forall bm, exists o, xs_make bm (W 1 4) = Ok o)
  /\ (forall bm, exists o, bl_make bm (sigh_generateData bm) (with_pieces one_particle W 1 7) (vbeg (W 1 8)) 1 true = Ok o)
  /\ (forall bm, exists o, ab_make bm (with_pieces one_particle W 1 9) (vbeg (W 1 10)) 1 false = Ok o)
  /\ (forall bm, exists o, dh_make bm (with_pieces one_particle W 1 11) (vbeg (W 1 12)) 1 (Some (Tyr (W 1 6) 1 [Laboratory] [1])) = Ok o)
  /\ (forall bm, exists t, pu_make bm ["1"; "u"]%char one_particle = Ok t)
  /\ exists x, pu_make Debug ["1"; "u"]%char (TData (zeros 16) (dzeros 16) (d_nxs one_particle) (map (fun x => if x =? 22 then 21 else x) (d_jxs one_particle)) (d_xss one_particle)) = Throw x.
Proof.
  cbv zeta.
  assert (B : forall k, In k [1; 6; 7; 8; 9; 10] -> placed one_particle k (one_particle_block k)).
  { intros k H. cbn [In] in H. repeat destruct H as [<- | H]; try contradiction H;
      (eexists; split; [reflexivity|]; split; [split; vm_compute; discriminate|]; split; [reflexivity|]; split; [reflexivity|]; split; [split; vm_compute; discriminate|]; reflexivity). }
  split.
  { unfold photonuclear_states. split; [reflexivity|]. split; [reflexivity|]. split; [vm_compute; reflexivity|].
    split. { intros x H. cbn in H. repeat destruct H as [<- | H]; try (split; [discriminate|vm_compute; reflexivity]). contradiction. }
    do 4 (split; [reflexivity|]). split; [exists 1; split; [reflexivity|discriminate]|]. do 3 (split; [lia|]).
    split; [apply B; cbn; tauto|]. split. { intros k Hk. apply B. assert (k = 6 \/ k = 7 \/ k = 8 \/ k = 9) by lia. cbn [In]. lia. }
    split; [vm_compute; discriminate|]. split; [vm_compute; discriminate|]. intros _. apply B. cbn. tauto. }
  split.
  { intros k Hk. assert (H : In k [3; 4; 5; 6; 7; 8; 9; 10; 11; 12]) by (cbn [In]; lia). clear Hk. cbn [In] in H.
    repeat destruct H as [<- | H]; try contradiction H;
      match goal with |- piece_at _ _ _ _ ?k _ => exists (nth (Z.to_nat k) [0; 1; 1; 22; 25; 28; 29; 30; 31; 37; 38; 38; 39; 50] 0) end;
      (split; [stated|]; split; [split; vm_compute; discriminate|]; split; [reflexivity|]; split; [reflexivity|]; split; [split; vm_compute; discriminate|]; vm_compute; reflexivity). }
  split; [stated|]. split; [stated|]. do 3 (split; [reflexivity|]).
  do 7 (split; [intros [|]; eexists; vm_compute; reflexivity|]). eexists. vm_compute. reflexivity.
Qed.
