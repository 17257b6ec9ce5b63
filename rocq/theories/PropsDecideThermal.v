(** C50, continued: thermal scattering tables. *)
From Coq Require Import ZArith Bool List Lia Ascii.
From Coq Require Import ZifyBool ZifyNat.
From Verif Require Import PropLemmasBasic Truncated NuBlock AtomicBlocks ElectronBlocks ThermalBlocks Accepted Decide PropsDecide DecideMore TableData DosimetryTable ThermalTable DecideThermal PropsDecideTables.
Import ListNotations.
Open Scope Z_scope.

(** Block [k] of the table has the words [v]: it starts at word [k] of JXS and ends before the next locator behind word [k] that is not
    smaller (locators 2, 5 and 8 mark an end and are skipped), or with the data. *)
Definition located (d : tdata) (k : Z) (v : view) : Prop :=
  exists start, nth_error (d_jxs d) (Z.to_nat (k - 1)) = Some start /\ 1 <= start <= len (d_xss d) + 1 /\ buf v = d_xss d /\ vbeg v = start - 1 /\ vbeg v <= vend v <= len (d_xss d)
  /\ vend v = match find (fun x => start <=? x) (skipn (Z.to_nat (if (k =? 1) || (k =? 4) || (k =? 7) then k + 1 else k)) (d_jxs d)) with Some x => x - 1 | None => len (d_xss d) end.
(** [n] energies with a cross section each; [nc] cosines for each of [n] energies *)
Definition xs_shows bm (n : Z) (c : columnData) : Prop := tc_NE bm c = Ok n /\ returns (tc_energies bm c) n /\ returns (tc_crossSections bm c) n.
Definition cosines_show bm (n nc : Z) (a : arrayData) : Prop := te_NE a = n /\ te_NC a = nc /\ forall i, 1 <= i <= n -> returns (te_cosines bm a i) nc.

Lemma find_same start l : (forall x, In x l -> 0 <= x < 2 ^ 31) -> 0 <= start -> jxs_find start l = find (fun x => start <=? x) l.
Proof.
  intros H S. unfold jxs_find. induction l as [|a l IH]; [reflexivity|]. cbn [find]. pose proof (H a (or_introl eq_refl)). rewrite u64_small by lia.
  rewrite IH by (intros x Hx; apply H; right; exact Hx). reflexivity.
Qed.
Lemma in_skipn {A} (l : list A) n x : In x (skipn n l) -> In x l.
Proof. revert n. induction l as [|a l IH]; intros [|n]; cbn [skipn]; intros H; try exact H. right. exact (IH n H). Qed.
Lemma decides_settles {A} Q (make : build -> outcome A) P : decides Q make P -> (exists x, make Debug = Throw x) \/ exists o, make Debug = Ok o /\ ~ ~ Q.
Proof.
  intros [H1 H2]. destruct (make Debug) as [o|x|] eqn:E.
  - right. exists o. split; [reflexivity|]. intros N. destruct (H2 N) as (x & Y). congruence.
  - left. exists x. reflexivity.
  - exfalso. assert (N : ~ Q). { intros q. destruct (H1 q Debug) as (o & Y & _). congruence. } destruct (H2 N) as (x & Y). congruence.
Qed.
Section Table.
  Context (d : tdata).
  Hypothesis Ln : len (d_nxs d) = 16.
  Hypothesis Lj : len (d_jxs d) = 32.
  Hypothesis Lx : len (d_xss d) < 2 ^ 31.
  Hypothesis Hj : forall x, In x (d_jxs d) -> 0 <= x < 2 ^ 31.
  Lemma located_inside k v : located d k v -> inside v.
  Proof. intros (s & _ & Hs & B & V1 & V2 & _). unfold inside, framed, max_words. rewrite B. pose proof (len_nonneg (d_xss d)). lia. Qed.
  Lemma located_block bm k v : 1 <= k <= 32 -> located d k v -> th_block bm d k = Ok (vbeg v, vend v) /\ tview d (vbeg v) (vend v) = v.
  Proof.
    intros Hk (s & E & Hs & B & V1 & V2 & V3). split; [|destruct v; cbn in *; subst; reflexivity].
    unfold th_block, d_JXS. rewrite (fetch_at bm (d_jxs d) k s) by (assumption || lia). cbn [bind]. pose proof (Hj s (nth_error_In _ _ E)) as Bs. rewrite u64_small by lia.
    cbv zeta. destruct (Z.eqb_spec s 0) as [X|_]; [lia|]. cbn [negb].
    rewrite find_same by (try lia; intros x Hx; apply Hj; exact (in_skipn _ _ _ Hx)).
    destruct (find _ _) as [x|] eqn:F; cycle 1.
    { cbn [Z.eqb negb]. rewrite V1, V3. reflexivity. }
    apply find_some in F as [F1 F2]. apply in_skipn in F1. pose proof (Hj x F1). rewrite u64_small by lia.
    destruct (Z.eqb_spec x 0) as [X|_]; [lia|]. cbn [negb]. rewrite V1, V3. reflexivity.
  Qed.
  Lemma xs_decides v n : inside v -> 1 <= size v -> states v 1 n -> 0 <= n < 2 ^ 31 ->
    (1 + n * 2 <= size v -> exists c, tc_make v = Ok c /\ forall bm, xs_shows bm n c) /\ (size v < 1 + n * 2 -> exists x, tc_make v = Throw x).
  Proof.
    intros I S W Hn. destruct (C50_columns v 2 n I ltac:(lia) W Hn ltac:(lia)) as [_ A]. destruct (A S) as [A1 A2]. split; [|exact A2].
    intros L. destruct (A1 L Debug) as (c & E & _). exists c. split; [exact E|]. intros bm. destruct (A1 L bm) as (c' & E' & X & Y). unfold tc_make in E. rewrite E in E'. apply Ok_inj in E'. subst c'.
    split; [exact X|]. split; apply Y; lia.
  Qed.
  Lemma cosines_decide v n nc : inside v -> 0 <= n < 2 ^ 31 -> 0 <= nc < 2 ^ 32 -> n * nc < 2 ^ 32 ->
    (n * nc <= size v -> exists a, te_make v n nc = Ok a /\ forall bm, cosines_show bm n nc a) /\ (size v < n * nc -> exists x, te_make v n nc = Throw x).
  Proof.
    intros I Hn Hc B. rewrite Z.mul_comm in B. destruct (C50_array_data v nc n I ltac:(lia) ltac:(lia) B) as [A1 A2]. rewrite (Z.mul_comm nc n) in *. unfold te_make. rewrite !u32_small by lia.
    split; [|exact A2]. intros L. destruct (A1 L Debug) as (a & E & _). exists a. split; [exact E|]. intros bm. destruct (A1 L bm) as (a' & E' & X & _). rewrite E in E'. apply Ok_inj in E'. subst a'.
    unfold ad_make in E. destruct (ad_verifySize v nc n); cbn [bind] in E; try discriminate. apply Ok_inj in E. subst a. split; [reflexivity|]. split; [reflexivity|exact X].
  Qed.
  Context (zaid : list ascii) (V : Z -> view) (nil nieb idpnc ncl ifeng ncli locb : Z) (ne n4 n7 : Z).
  Hypothesis Hz : zaid <> [].
  Hypothesis N3 : nth_error (d_nxs d) 2 = Some nil.
  Hypothesis N4 : nth_error (d_nxs d) 3 = Some nieb.
  Hypothesis N5 : nth_error (d_nxs d) 4 = Some idpnc.
  Hypothesis N6 : nth_error (d_nxs d) 5 = Some ncl.
  Hypothesis N7 : nth_error (d_nxs d) 6 = Some ifeng.
  Hypothesis N8 : nth_error (d_nxs d) 7 = Some ncli.
  Hypothesis J3 : nth_error (d_jxs d) 2 = Some locb.
  Hypothesis Bn : 1 <= nil < 2 ^ 31 - 1 /\ 0 <= nieb < 2 ^ 31 /\ 0 <= idpnc < 2 ^ 31 /\ -1 <= ncl < 2 ^ 30 /\ 0 <= ifeng < 2 ^ 31 /\ -1 <= ncli < 2 ^ 30.
  Hypothesis K1 : located d 1 (V 1) /\ 1 <= size (V 1) /\ states (V 1) 1 ne /\ 0 <= ne < 2 ^ 31.
  Hypothesis K3 : located d 3 (V 3).
  Hypothesis K4 : 3 <= idpnc -> located d 4 (V 4) /\ 1 <= size (V 4) /\ states (V 4) 1 n4 /\ 0 <= n4 < 2 ^ 31 /\ n4 * (ncl + 1) < 2 ^ 32.
  Hypothesis K6 : 3 <= idpnc -> idpnc = 3 \/ ncl <> -1 -> located d 6 (V 6).
  Hypothesis K7 : idpnc = 5 -> located d 7 (V 7) /\ 1 <= size (V 7) /\ states (V 7) 1 n7 /\ 0 <= n7 < 2 ^ 31 /\ n7 * (ncli + 1) < 2 ^ 32.
  Hypothesis K9 : idpnc = 5 -> located d 9 (V 9).
  Let nc : Z := if ifeng <? 2 then nil + 1 else nil - 1.
  Context (Qx : Prop) (Px : build -> itxe -> Prop).
  Hypothesis X : decides Qx (fun bm => it_make bm ifeng (if ifeng <? 2 then nieb else 0) nc ne locb (V 3)) Px.
  Definition table_fits : Prop :=
    last zaid "0"%char = "t"%char /\ 1 + ne * 2 <= size (V 1) /\ Qx
    /\ (3 <= idpnc -> 1 + n4 * 2 <= size (V 4) /\ (idpnc = 3 \/ ncl <> -1 -> n4 * (ncl + 1) <= size (V 6)))
    /\ (idpnc = 5 -> 1 + n7 * 2 <= size (V 7) /\ n7 * (ncli + 1) <= size (V 9)).
  Definition coherent_shows bm (t : thTable) : Prop :=
    if 3 <? idpnc then (exists c, tt_itce t = Some c /\ xs_shows bm n4 c)
      /\ (if ncl =? -1 then tt_itca t = None else exists a, tt_itca t = Some a /\ cosines_show bm n4 (ncl + 1) a)
    else tt_itce t = None /\ tt_itca t = None.
  Definition incoherent_shows bm (t : thTable) : Prop :=
    if idpnc =? 3 then (exists c, tt_itcei t = Some c /\ xs_shows bm n4 c) /\ exists a, tt_itcai t = Some a /\ cosines_show bm n4 (ncl + 1) a
    else if idpnc =? 5 then (exists c, tt_itcei t = Some c /\ xs_shows bm n7 c) /\ exists a, tt_itcai t = Some a /\ cosines_show bm n7 (ncli + 1) a
    else tt_itcei t = None /\ tt_itcai t = None.
  Ltac nx k v := rewrite (fetch_at _ (d_nxs d) k v) by (assumption || lia); cbn [bind].
  Lemma plus1_in n : -1 <= n < 2 ^ 30 -> plus1 n = Ok (n + 1).
  Proof. intros H. unfold plus1, in_int. destruct (_ && _) eqn:E; [reflexivity|lia]. Qed.
  Lemma inelastic_decides : decides (1 + ne * 2 <= size (V 1) /\ Qx) (fun bm => th_inelastic bm d) (fun bm p => xs_shows bm ne (fst p) /\ Px bm (snd p)).
  Proof.
    destruct K1 as (L1 & S1 & W1 & B1). destruct (xs_decides (V 1) ne (located_inside _ _ L1) S1 W1 B1) as [A1 A2]. destruct Bn as (Bnil & Bnieb & _ & _ & Bf & _).
    assert (J1 : exists s1, nth_error (d_jxs d) 0 = Some s1 /\ 1 <= s1). { destruct L1 as (s & E & Hs & _). exists s. split; [exact E|lia]. } destruct J1 as (s1 & J1 & Hs1).
    pose proof (Hj _ (nth_error_In _ _ J3)) as Bl.
    assert (F : forall bm, th_inelastic bm d = (itie <- tc_make (V 1) ;; nx <- tc_NE bm itie ;;
       x <- it_make bm ifeng (if ifeng <? 2 then nieb else 0) nc nx locb (V 3) ;; Ok (itie, x))).
    { intros bm. unfold th_inelastic. destruct (located_block bm 1 (V 1) ltac:(lia) L1) as [E1 E1']. destruct (located_block bm 3 (V 3) ltac:(lia) K3) as [E3 E3'].
      unfold d_JXS. rewrite (fetch_at bm (d_jxs d) 1 s1) by (assumption || lia). cbn [bind]. destruct (Z.ltb_spec 0 s1) as [_|Y]; [|lia].
      rewrite E1. cbn [bind fst snd]. rewrite E1'. destruct (tc_make (V 1)) as [c|x|]; cbn [bind]; try reflexivity. rewrite E3. cbn [bind fst snd].
      unfold th_IFENG, th_NIL, th_NIEB, d_NXS. nx 7 ifeng. nx 4 nieb. nx 3 nil. rewrite !u32_small by lia.
      rewrite (fetch_at bm (d_jxs d) 3 locb) by (assumption || lia). cbn [bind]. rewrite (u64_small locb) by lia. rewrite E3'.
      unfold nc. destruct (ifeng <? 2); cbn [bind]; destruct (tc_NE bm c); cbn [bind]; try reflexivity; rewrite (u32_small nil) by lia; rewrite u32_small by lia; reflexivity. }
    split.
    - intros (Q1 & Q2) bm. rewrite F. destruct (A1 Q1) as (c & -> & C). cbn [bind]. destruct (C bm) as (C1 & C2). rewrite C1. cbn [bind].
      destruct (proj1 X Q2 bm) as (x & -> & P). cbn [bind]. exists (c, x). split; [reflexivity|]. split; [split; assumption|exact P].
    - intros N. rewrite F. destruct (Z.leb_spec (1 + ne * 2) (size (V 1))) as [Q|Q].
      + destruct (A1 Q) as (c & -> & C). cbn [bind]. destruct (C Debug) as (C1 & _). rewrite C1. cbn [bind]. destruct (proj2 X) as (x & ->); [tauto|]. eexists. reflexivity.
      + destruct (A2 Q) as (x & ->). eexists. reflexivity.
  Qed.
  Lemma elastic_decides kx ka (w : Z) : 1 <= kx <= 32 -> 1 <= ka <= 32 -> forall n, located d kx (V kx) -> 1 <= size (V kx) -> states (V kx) 1 n -> 0 <= n < 2 ^ 31 -> 0 <= w < 2 ^ 31 -> n * w < 2 ^ 32 ->
    located d ka (V ka) ->
    decides (1 + n * 2 <= size (V kx) /\ n * w <= size (V ka))
      (fun bm => b <- th_block bm d kx ;; c <- tc_make (tview d (fst b) (snd b)) ;; b <- th_block bm d ka ;; m <- tc_NE bm c ;; a <- te_make (tview d (fst b) (snd b)) m w ;; Ok (Some c, Some a))
      (fun bm p => exists c a, p = (Some c, Some a) /\ xs_shows bm n c /\ cosines_show bm n w a).
  Proof.
    intros Hx Ha n L1 S1 W1 B1 Hw B L2. destruct (xs_decides (V kx) n (located_inside _ _ L1) S1 W1 B1) as [A1 A2].
    destruct (cosines_decide (V ka) n w (located_inside _ _ L2) B1 ltac:(lia) B) as [C1 C2]. split.
    - intros (Q1 & Q2) bm. destruct (located_block bm kx (V kx) Hx L1) as [E E']. destruct (located_block bm ka (V ka) Ha L2) as [G G'].
      rewrite E. cbn [bind fst snd]. rewrite E'. destruct (A1 Q1) as (c & -> & C). cbn [bind]. rewrite G. cbn [bind fst snd]. destruct (C bm) as (Y1 & Y2). rewrite Y1. cbn [bind]. rewrite G'.
      destruct (C1 Q2) as (a & -> & Z1). cbn [bind]. eexists. split; [reflexivity|]. exists c, a. split; [reflexivity|]. split; [split; assumption|apply Z1].
    - intros N. destruct (located_block Debug kx (V kx) Hx L1) as [E E']. destruct (located_block Debug ka (V ka) Ha L2) as [G G'].
      rewrite E. cbn [bind fst snd]. rewrite E'. destruct (Z.leb_spec (1 + n * 2) (size (V kx))) as [Q|Q].
      + destruct (A1 Q) as (c & -> & C). cbn [bind]. rewrite G. cbn [bind fst snd]. destruct (C Debug) as (Y1 & _). rewrite Y1. cbn [bind]. rewrite G'.
        destruct C2 as (x & ->); [lia|]. eexists. reflexivity.
      + destruct (A2 Q) as (x & ->). eexists. reflexivity.
  Qed.
  Lemma coherent_decides : decides (3 < idpnc -> 1 + n4 * 2 <= size (V 4) /\ (ncl <> -1 -> n4 * (ncl + 1) <= size (V 6))) (fun bm => th_coherent bm d)
    (fun bm p => if 3 <? idpnc then (exists c, fst p = Some c /\ xs_shows bm n4 c) /\ (if ncl =? -1 then snd p = None else exists a, snd p = Some a /\ cosines_show bm n4 (ncl + 1) a)
                 else fst p = None /\ snd p = None).
  Proof.
    destruct Bn as (_ & _ & Bi & Bc & _). destruct (Z.ltb_spec 3 idpnc) as [K|K].
    2:{ split; [|intros N; exfalso; apply N; lia]. intros _ bm. exists (None, None). split; [|split; reflexivity].
        unfold th_coherent, th_IDPNC, d_NXS. nx 5 idpnc. rewrite u32_small by lia. destruct (Z.ltb_spec 3 idpnc); [lia|reflexivity]. }
    destruct (K4 ltac:(lia)) as (L4 & S4 & W4 & B4 & M4). destruct (Z.eqb_spec ncl (-1)) as [Nc|Nc].
    - assert (F : forall bm, th_coherent bm d = (c <- tc_make (V 4) ;; Ok (Some c, None))).
      { intros bm. unfold th_coherent, th_IDPNC, th_NCL, d_NXS. nx 5 idpnc. rewrite u32_small by lia. destruct (Z.ltb_spec 3 idpnc) as [_|Y]; [|lia].
        destruct (located_block bm 4 (V 4) ltac:(lia) L4) as [E E']. rewrite E. cbn [bind fst snd]. rewrite E'. destruct (tc_make (V 4)) as [c|x|]; cbn [bind]; try reflexivity.
        nx 6 ncl. rewrite s32_small by lia. rewrite plus1_in by lia. cbn [bind]. destruct (Z.eqb_spec (ncl + 1) 0); [reflexivity|lia]. }
      destruct (xs_decides (V 4) n4 (located_inside _ _ L4) S4 W4 B4) as [A1 A2]. split.
      + intros Q bm. destruct (Q K) as [Q1 _]. rewrite F. destruct (A1 Q1) as (c & -> & C). cbn [bind]. eexists. split; [reflexivity|]. split; [|reflexivity]. exists c. split; [reflexivity|apply C].
      + intros N. rewrite F. destruct A2 as (x & ->); [|eexists; reflexivity]. destruct (Z.ltb_spec (size (V 4)) (1 + n4 * 2)) as [Y|Y]; [exact Y|]. exfalso. apply N. intros _. split; [exact Y|]. intros Y'. congruence.
    - destruct (elastic_decides 4 6 (ncl + 1) ltac:(lia) ltac:(lia) n4 L4 S4 W4 B4 ltac:(lia) M4 (K6 ltac:(lia) (or_intror Nc))) as [D1 D2].
      assert (F : forall bm, th_coherent bm d = (b <- th_block bm d 4 ;; c <- tc_make (tview d (fst b) (snd b)) ;; b <- th_block bm d 6 ;; m <- tc_NE bm c ;; a <- te_make (tview d (fst b) (snd b)) m (ncl + 1) ;; Ok (Some c, Some a))).
      { intros bm. unfold th_coherent, th_IDPNC, th_NCL, d_NXS. nx 5 idpnc. rewrite u32_small by lia. destruct (Z.ltb_spec 3 idpnc) as [_|Y]; [|lia].
        destruct (th_block bm d 4) as [b|x|]; cbn [bind]; try reflexivity. destruct (tc_make _) as [c|x|]; cbn [bind]; try reflexivity.
        nx 6 ncl. rewrite s32_small by lia. rewrite plus1_in by lia. cbn [bind]. destruct (Z.eqb_spec (ncl + 1) 0); [lia|]. cbn [negb]. rewrite u64_small by lia. reflexivity. }
      split.
      + intros Q bm. destruct (Q K) as [Q1 Q2]. rewrite F. destruct (D1 (conj Q1 (Q2 Nc)) bm) as (p & -> & c & a & -> & C & A). eexists. split; [reflexivity|]. cbn [fst snd]. split; [exists c|exists a]; (split; [reflexivity|assumption]).
      + intros N. rewrite F. apply D2. intros [Q1 Q2]. apply N. intros _. split; [exact Q1|intros _; exact Q2].
  Qed.
  Lemma incoherent_decides : decides ((idpnc = 3 -> 1 + n4 * 2 <= size (V 4) /\ n4 * (ncl + 1) <= size (V 6)) /\ (idpnc = 5 -> 1 + n7 * 2 <= size (V 7) /\ n7 * (ncli + 1) <= size (V 9))) (fun bm => th_incoherent bm d)
    (fun bm p => if idpnc =? 3 then (exists c, fst p = Some c /\ xs_shows bm n4 c) /\ exists a, snd p = Some a /\ cosines_show bm n4 (ncl + 1) a
                 else if idpnc =? 5 then (exists c, fst p = Some c /\ xs_shows bm n7 c) /\ exists a, snd p = Some a /\ cosines_show bm n7 (ncli + 1) a
                 else fst p = None /\ snd p = None).
  Proof.
    destruct Bn as (_ & _ & Bi & Bc & _ & Bc'). destruct (Z.eqb_spec idpnc 3) as [K|K].
    - destruct (K4 ltac:(lia)) as (L4 & S4 & W4 & B4 & M4). destruct (elastic_decides 4 6 (ncl + 1) ltac:(lia) ltac:(lia) n4 L4 S4 W4 B4 ltac:(lia) M4 (K6 ltac:(lia) (or_introl K))) as [D1 D2].
      assert (F : forall bm, th_incoherent bm d = (b <- th_block bm d 4 ;; c <- tc_make (tview d (fst b) (snd b)) ;; b <- th_block bm d 6 ;; m <- tc_NE bm c ;; a <- te_make (tview d (fst b) (snd b)) m (ncl + 1) ;; Ok (Some c, Some a))).
      { intros bm. unfold th_incoherent, th_IDPNC, th_NCL, d_NXS. nx 5 idpnc. rewrite u32_small by lia. destruct (Z.eqb_spec idpnc 3) as [_|Y]; [|lia]. cbn [orb].
        destruct (th_block bm d 4) as [b|x|]; cbn [bind]; try reflexivity. destruct (tc_make _) as [c|x|]; cbn [bind]; try reflexivity. destruct (th_block bm d 6) as [b'|x|]; cbn [bind]; try reflexivity.
        destruct (tc_NE bm c) as [m|x|]; cbn [bind]; try reflexivity.
        nx 6 ncl. rewrite s32_small by lia. rewrite plus1_in by lia. cbn [bind]. rewrite u64_small by lia. reflexivity. }
      split.
      + intros [Q _] bm. rewrite F. destruct (D1 (Q K) bm) as (p & -> & c & a & -> & C & A). eexists. split; [reflexivity|]. cbn [fst snd]. split; [exists c|exists a]; (split; [reflexivity|assumption]).
      + intros N. rewrite F. apply D2. intros Q. apply N. split; [intros _; exact Q|lia].
    - destruct (Z.eqb_spec idpnc 5) as [K'|K'].
      + destruct (K7 K') as (L4 & S4 & W4 & B4 & M4). destruct (elastic_decides 7 9 (ncli + 1) ltac:(lia) ltac:(lia) n7 L4 S4 W4 B4 ltac:(lia) M4 (K9 K')) as [D1 D2].
        assert (F : forall bm, th_incoherent bm d = (b <- th_block bm d 7 ;; c <- tc_make (tview d (fst b) (snd b)) ;; b <- th_block bm d 9 ;; m <- tc_NE bm c ;; a <- te_make (tview d (fst b) (snd b)) m (ncli + 1) ;; Ok (Some c, Some a))).
        { intros bm. unfold th_incoherent, th_IDPNC, th_NCLI, d_NXS. nx 5 idpnc. rewrite u32_small by lia. destruct (Z.eqb_spec idpnc 3) as [Y|_]; [lia|]. destruct (Z.eqb_spec idpnc 5) as [_|Y]; [|lia]. cbn [orb].
          destruct (th_block bm d 7) as [b|x|]; cbn [bind]; try reflexivity. destruct (tc_make _) as [c|x|]; cbn [bind]; try reflexivity. destruct (th_block bm d 9) as [b'|x|]; cbn [bind]; try reflexivity.
          destruct (tc_NE bm c) as [m|x|]; cbn [bind]; try reflexivity.
          nx 8 ncli. rewrite s32_small by lia. rewrite plus1_in by lia. cbn [bind]. rewrite u64_small by lia. reflexivity. }
        split.
        * intros [_ Q] bm. rewrite F. destruct (D1 (Q K') bm) as (p & -> & c & a & -> & C & A). eexists. split; [reflexivity|]. cbn [fst snd]. split; [exists c|exists a]; (split; [reflexivity|assumption]).
        * intros N. rewrite F. apply D2. intros Q. apply N. split; [lia|intros _; exact Q].
      + split; [|intros N; exfalso; apply N; split; lia]. intros _ bm. exists (None, None). split; [|split; reflexivity].
        unfold th_incoherent, th_IDPNC, d_NXS. nx 5 idpnc. rewrite u32_small by lia. destruct (Z.eqb_spec idpnc 3); [lia|]. destruct (Z.eqb_spec idpnc 5); [lia|]. reflexivity.
  Qed.
  Lemma table_decides : decides table_fits (fun bm => th_make bm zaid d)
    (fun bm t => xs_shows bm ne (tt_itie t) /\ Px bm (tt_itxe t) /\ coherent_shows bm t /\ incoherent_shows bm t).
  Proof.
    assert (Vt : verifyType ["t"%char] zaid = throw_if (negb (Ascii.eqb (last zaid "0"%char) "t")) StdException).
    { unfold verifyType. destruct (exists_last Hz) as (l & c & ->). rewrite rev_unit, last_last. cbn [existsb]. rewrite orb_false_r. reflexivity. }
    destruct inelastic_decides as [I1 I2], coherent_decides as [C1 C2], incoherent_decides as [D1 D2].
    split.
    - intros (Z1 & Q1 & Q2 & Q3 & Q4) bm. unfold th_make. rewrite Vt, Z1. cbn [Ascii.eqb Bool.eqb negb throw_if bind].
      destruct (I1 (conj Q1 Q2) bm) as ([a b] & -> & A & B). cbn [bind].
      destruct C1 with (bm := bm) as ([c e] & -> & C). { intros K. destruct (Q3 ltac:(lia)) as [Y1 Y2]. split; [exact Y1|]. intros Y. apply Y2. right. exact Y. }
      cbn [bind]. destruct D1 with (bm := bm) as ([f g] & -> & D). { split; [|exact Q4]. intros K. destruct (Q3 ltac:(lia)) as [Y1 Y2]. split; [exact Y1|]. apply Y2. left. exact K. }
      cbn [bind fst snd] in *. eexists. split; [reflexivity|]. cbn [tt_itie tt_itxe]. split; [exact A|]. split; [exact B|]. split; [exact C|exact D].
    - intros N. unfold th_make. rewrite Vt. destruct (Ascii.eqb_spec (last zaid "0"%char) "t"%char) as [Z1|Z1]; cbn [negb throw_if bind]; [|eexists; reflexivity].
      destruct (decides_settles _ _ _ inelastic_decides) as [(x & ->)|(p & -> & Y1)]; cbn [bind]; [eexists; reflexivity|].
      destruct (decides_settles _ _ _ coherent_decides) as [(x & ->)|(q & -> & Y2)]; cbn [bind]; [eexists; reflexivity|].
      destruct (decides_settles _ _ _ incoherent_decides) as [(x & ->)|(r & -> & Y3)]; cbn [bind]; [eexists; reflexivity|].
      exfalso. apply Y1. intros (Q1 & Q2). apply Y2. intros Q3. apply Y3. intros (Q4 & Q5). apply N.
      split; [exact Z1|]. split; [exact Q1|]. split; [exact Q2|]. split; [|exact Q5]. intros K.
      destruct (Z.eq_dec idpnc 3) as [K'|K']; [destruct (Q4 K') as [Y5 Y6]; split; [exact Y5|intros _; exact Y6]|].
      destruct (Q3 ltac:(lia)) as [Y5 Y6]. split; [exact Y5|]. intros [Y|Y]; [congruence|exact (Y6 Y)].
  Qed.
End Table.

(** What the arrays of a thermal scattering table state: the words of NXS, the locator of ITXE, the numbers of energies of blocks 1, 4 and 7. *)
Record thWords := ThWords { w_NIL : Z; w_NIEB : Z; w_IDPNC : Z; w_NCL : Z; w_IFENG : Z; w_NCLI : Z; w_ITXE : Z; w_n1 : Z; w_n4 : Z; w_n7 : Z }.
Definition thermal_states (d : tdata) (V : Z -> view) (s : thWords) : Prop :=
  len (d_nxs d) = 16 /\ len (d_jxs d) = 32 /\ len (d_xss d) < 2 ^ 31 /\ (forall x, In x (d_jxs d) -> 0 <= x < 2 ^ 31)
  /\ nth_error (d_nxs d) 2 = Some (w_NIL s) /\ nth_error (d_nxs d) 3 = Some (w_NIEB s) /\ nth_error (d_nxs d) 4 = Some (w_IDPNC s)
  /\ nth_error (d_nxs d) 5 = Some (w_NCL s) /\ nth_error (d_nxs d) 6 = Some (w_IFENG s) /\ nth_error (d_nxs d) 7 = Some (w_NCLI s) /\ nth_error (d_jxs d) 2 = Some (w_ITXE s)
  /\ 1 <= w_NIL s < 2 ^ 31 - 1 /\ 0 <= w_NIEB s < 2 ^ 31 /\ 0 <= w_IDPNC s < 2 ^ 31 /\ -1 <= w_NCL s < 2 ^ 30 /\ 0 <= w_IFENG s < 2 ^ 31 /\ -1 <= w_NCLI s < 2 ^ 30
  /\ (located d 1 (V 1) /\ 1 <= size (V 1) /\ states (V 1) 1 (w_n1 s) /\ 0 <= w_n1 s < 2 ^ 31)
  /\ located d 3 (V 3)
  /\ (3 <= w_IDPNC s -> located d 4 (V 4) /\ 1 <= size (V 4) /\ states (V 4) 1 (w_n4 s) /\ 0 <= w_n4 s < 2 ^ 31 /\ w_n4 s * (w_NCL s + 1) < 2 ^ 32)
  /\ (3 <= w_IDPNC s -> w_IDPNC s = 3 \/ w_NCL s <> -1 -> located d 6 (V 6))
  /\ (w_IDPNC s = 5 -> located d 7 (V 7) /\ 1 <= size (V 7) /\ states (V 7) 1 (w_n7 s) /\ 0 <= w_n7 s < 2 ^ 31 /\ w_n7 s * (w_NCLI s + 1) < 2 ^ 32)
  /\ (w_IDPNC s = 5 -> located d 9 (V 9)).
(** The elastic blocks are long enough. *)
Definition elastic_fits (V : Z -> view) (s : thWords) : Prop :=
  (3 <= w_IDPNC s -> 1 + w_n4 s * 2 <= size (V 4) /\ (w_IDPNC s = 3 \/ w_NCL s <> -1 -> w_n4 s * (w_NCL s + 1) <= size (V 6)))
  /\ (w_IDPNC s = 5 -> 1 + w_n7 s * 2 <= size (V 7) /\ w_n7 s * (w_NCLI s + 1) <= size (V 9)).
(** The table shows the elastic blocks of that size: coherent ones for IDPNC 4 and more (with cosines unless NCL is -1), incoherent ones for 3 and 5. *)
Definition elastic_shows bm (s : thWords) (t : thTable) : Prop :=
  (if 3 <? w_IDPNC s then (exists c, tt_itce t = Some c /\ xs_shows bm (w_n4 s) c)
      /\ (if w_NCL s =? -1 then tt_itca t = None else exists a, tt_itca t = Some a /\ cosines_show bm (w_n4 s) (w_NCL s + 1) a)
   else tt_itce t = None /\ tt_itca t = None)
  /\ (if w_IDPNC s =? 3 then (exists c, tt_itcei t = Some c /\ xs_shows bm (w_n4 s) c) /\ exists a, tt_itcai t = Some a /\ cosines_show bm (w_n4 s) (w_NCL s + 1) a
      else if w_IDPNC s =? 5 then (exists c, tt_itcei t = Some c /\ xs_shows bm (w_n7 s) c) /\ exists a, tt_itcai t = Some a /\ cosines_show bm (w_n7 s) (w_NCLI s + 1) a
      else tt_itcei t = None /\ tt_itcai t = None).

(** Equal or skewed bins: for each of [w_n1 s] energies NIEB outgoing energies with NIL + 1 cosines. *)
Theorem C50_thermal_table zaid d V s : zaid <> [] -> thermal_states d V s -> w_IFENG s < 2 -> w_n1 s * w_NIEB s * (w_NIL s + 2) < 2 ^ 32 ->
  decides (last zaid "0"%char = "t"%char /\ 1 + w_n1 s * 2 <= size (V 1) /\ w_n1 s * w_NIEB s * (w_NIL s + 2) <= size (V 3) /\ elastic_fits V s)
    (fun bm => th_make bm zaid d)
    (fun bm t => xs_shows bm (w_n1 s) (tt_itie t) /\ elastic_shows bm s t
       /\ forall i j, 1 <= i <= w_n1 s -> 1 <= j <= w_NIEB s -> exists c, it_cosineData bm (tt_itxe t) i j = Ok c
            /\ cos_NC c = w_NIL s + 1 /\ (exists e, cos_energy bm c = Ok e) /\ returns (cos_cosines bm c) (w_NIL s + 1)).
Proof.
  intros Hz (Ln & Lj & Lx & Hj & N3 & N4 & N5 & N6 & N7 & N8 & J3 & Bn1 & Bn2 & Bn3 & Bn4 & Bn5 & Bn6 & K1 & K3 & K4 & K6 & K7 & K9) Hf B.
  assert (E : (w_IFENG s <? 2) = true) by lia. pose proof (located_inside d Lx Hj 3 (V 3) K3) as I3. destruct K1 as (L1 & S1 & W1 & B1).
  pose proof (C50_inelastic_cosines (V 3) (w_IFENG s) (w_NIEB s) (w_NIL s + 1) (w_n1 s) (w_ITXE s) I3 Hf ltac:(lia) Bn2 B1) as X. replace (1 + (w_NIL s + 1)) with (w_NIL s + 2) in X by lia. destruct (X B) as [X1 X2].
  pose proof (table_decides d Ln Lj Lx Hj zaid V (w_NIL s) (w_NIEB s) (w_IDPNC s) (w_NCL s) (w_IFENG s) (w_NCLI s) (w_ITXE s) (w_n1 s) (w_n4 s) (w_n7 s) Hz N3 N4 N5 N6 N7 N8 J3
    ltac:(tauto) (conj L1 (conj S1 (conj W1 B1))) K3 K4 K6 K7 K9) as T. rewrite E in T.
  assert (X2' : ~ w_n1 s * w_NIEB s * (w_NIL s + 2) <= size (V 3) -> size (V 3) < w_n1 s * w_NIEB s * (w_NIL s + 2)) by lia.
  specialize (T (w_n1 s * w_NIEB s * (w_NIL s + 2) <= size (V 3)) _ (conj X1 (fun H => X2 (X2' H)))). unfold table_fits in T. fold (elastic_fits V s) in T.
  destruct T as [T1 T2]. split; [|exact T2]. intros Q bm. destruct (T1 Q bm) as (t & Et & A & P & C & D). exists t. split; [exact Et|]. split; [exact A|]. split; [exact (conj C D)|exact P].
Qed.
Print Assumptions C50_thermal_table.
(** Tabulated cosines (IFENG 2), as in [C50_tabulated_inelastic_cosines]; a set has NIL + 2 words. *)
Theorem C50_thermal_table_tabulated zaid d V s (loc cnt : Z -> Z) : zaid <> [] -> thermal_states d V s -> 2 <= w_IFENG s -> 1 <= w_ITXE s -> 1 <= w_n1 s < 2 ^ 30 -> 2 * w_n1 s <= size (V 3) ->
  (forall i, 1 <= i <= w_n1 s -> states (V 3) i (loc i + w_ITXE s - 2) /\ 1 <= loc i /\ loc i + w_ITXE s <= 2 ^ 31) ->
  (forall i, 1 <= i <= w_n1 s -> states (V 3) (w_n1 s + i) (cnt i) /\ 1 <= cnt i < 2 ^ 30) ->
  (forall i, 1 <= i < w_n1 s -> loc i <= loc (i + 1)) ->
  let stop i := if i <? w_n1 s then loc (i + 1) else size (V 3) + 1 in
  (forall i, 1 <= i <= w_n1 s -> loc i <= size (V 3) + 1 -> stop i <= size (V 3) + 1 -> (cnt i - 1) * (w_NIL s + 2) <= stop i - loc i) ->
  decides (last zaid "0"%char = "t"%char /\ 1 + w_n1 s * 2 <= size (V 1) /\ (forall i, 1 <= i <= w_n1 s -> cnt i * (w_NIL s + 2) <= stop i - loc i) /\ elastic_fits V s)
    (fun bm => th_make bm zaid d)
    (fun bm t => xs_shows bm (w_n1 s) (tt_itie t) /\ elastic_shows bm s t
       /\ forall i, 1 <= i <= w_n1 s -> it_NIEB bm (tt_itxe t) i = Ok (cnt i) /\ forall j, 1 <= j <= cnt i -> exists c, it_cosineData bm (tt_itxe t) i j = Ok c
            /\ cos_NC c = w_NIL s - 1 /\ (exists e, cos_energy bm c = Ok e) /\ (exists p, cos_pdf bm (cos_v c) = Ok p) /\ (exists u, cos_cdf bm (cos_v c) = Ok u) /\ returns (cos_cosines bm c) (w_NIL s - 1)).
Proof.
  intros Hz (Ln & Lj & Lx & Hj & N3 & N4 & N5 & N6 & N7 & N8 & J3 & Bn1 & Bn2 & Bn3 & Bn4 & Bn5 & Bn6 & K1 & K3 & K4 & K6 & K7 & K9) Hf Hx Hn S2 Hl Hc Hm stop Hr.
  assert (E : (w_IFENG s <? 2) = false) by lia. pose proof (located_inside d Lx Hj 3 (V 3) K3) as I3. pose proof (Hj _ (nth_error_In _ _ J3)) as Bx.
  assert (Y : 3 + (w_NIL s - 1) = w_NIL s + 2) by lia.
  pose proof (C50_tabulated_inelastic_cosines (V 3) (w_IFENG s) 0 (w_NIL s - 1) (w_n1 s) (w_ITXE s) loc cnt I3 Hf ltac:(lia) Hn ltac:(lia) S2 Hl Hc Hm) as X. cbv zeta in X. rewrite Y in X.
  specialize (X Hr).
  pose proof (table_decides d Ln Lj Lx Hj zaid V (w_NIL s) (w_NIEB s) (w_IDPNC s) (w_NCL s) (w_IFENG s) (w_NCLI s) (w_ITXE s) (w_n1 s) (w_n4 s) (w_n7 s) Hz N3 N4 N5 N6 N7 N8 J3
    ltac:(tauto) K1 K3 K4 K6 K7 K9) as T. rewrite E in T. specialize (T _ _ X). unfold table_fits in T. fold (elastic_fits V s) in T.
  destruct T as [T1 T2]. split; [|exact T2]. intros Q bm. destruct (T1 Q bm) as (t & Et & A & P & C & D). exists t. split; [exact Et|]. split; [exact A|]. split; [exact (conj C D)|exact P].
Qed.
Print Assumptions C50_thermal_table_tabulated.

(** one energy, one outgoing energy with two cosines, coherent elastic scattering with one cosine *)
Definition one_energy : tdata :=
  TData (zeros 16) (dzeros 16) ([10; 3; 1; 1; 4; 0; 0; -1] ++ zeros 8) ([1; 3; 4; 7; 8; 10] ++ zeros 26) (map dbl [1; 5; 6; 7; 1; 0; 1; 8; 9; 1]).
Definition one_energy_blocks (k : Z) : view :=
  if k =? 1 then View (d_xss one_energy) 0 3 else if k =? 3 then View (d_xss one_energy) 3 6 else if k =? 4 then View (d_xss one_energy) 6 9 else View (d_xss one_energy) 9 10.
Definition one_energy_words : thWords := ThWords 1 1 4 0 0 (-1) 4 1 1 0.
Ltac loc s := exists s; vm_compute; repeat split; (discriminate || reflexivity).
Example thermal_table_met : thermal_states one_energy one_energy_blocks one_energy_words /\ elastic_fits one_energy_blocks one_energy_words
  /\ 1 + 1 * 2 = size (one_energy_blocks 1) /\ 1 * 1 * (1 + 2) = size (one_energy_blocks 3) /\ forall bm, exists t, th_make bm ["t"%char] one_energy = Ok t.
Proof.
  split.
  { unfold thermal_states. split; [reflexivity|]. split; [reflexivity|]. split; [reflexivity|].
    split. { intros x H. cbn in H. repeat destruct H as [<- | H]; try (split; [discriminate|reflexivity]). contradiction. }
    do 7 (split; [reflexivity|]). cbn [one_energy_words w_NIL w_NIEB w_IDPNC w_NCL w_IFENG w_NCLI w_ITXE w_n1 w_n4 w_n7]. do 6 (split; [lia|]).
    split. { split; [loc 1|]. split; [vm_compute; discriminate|]. split; [stated|lia]. }
    split; [loc 4|].
    split. { intros _. split; [loc 7|]. split; [vm_compute; discriminate|]. split; [stated|]. split; lia. }
    split; [intros _ _; loc 10|]. split; intros H; lia. }
  split. { split; intros H; [|vm_compute in H; discriminate]. split; [vm_compute; discriminate|intros _; vm_compute; discriminate]. }
  split; [reflexivity|]. split; [reflexivity|]. intros [|]; eexists; vm_compute; reflexivity.
Qed.
Example thermal_table_short : exists x, th_make Debug ["t"%char] (TData (zeros 16) (dzeros 16) (d_nxs one_energy) (d_jxs one_energy) (map dbl [1; 5; 6; 7; 1; 0; 1; 8; 9])) = Throw x.
Proof. eexists. vm_compute. reflexivity. Qed.
