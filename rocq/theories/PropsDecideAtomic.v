(** C50, continued: photoatomic tables without electron data. *)
From Coq Require Import ZArith Bool List Lia Ascii.
From Coq Require Import ZifyBool ZifyNat.
From Verif Require Import PropLemmasBasic Truncated NuBlock ReactionNumbers AtomicBlocks ElectronBlocks Accepted Decide PropsDecide DecideMore TableData DosimetryTable PropsDecideTables PropsDecideThermal PhotoatomicTable.
Import ListNotations.
Open Scope Z_scope.

(** Block [k] of the table has the words [v]: it starts at word [k] of JXS and ends before the next locator behind word [k] that is not smaller, or with the data. *)
Definition placed (d : tdata) (k : Z) (v : view) : Prop :=
  exists start, nth_error (d_jxs d) (Z.to_nat (k - 1)) = Some start /\ 1 <= start <= len (d_xss d) + 1 /\ buf v = d_xss d /\ vbeg v = start - 1 /\ vbeg v <= vend v <= len (d_xss d)
  /\ vend v = match find (fun x => start <=? x) (skipn (Z.to_nat k) (d_jxs d)) with Some x => x - 1 | None => len (d_xss d) end.

(** * Composing decisions *)
Lemma decides_then {A B C} Q1 Q2 (m1 : build -> outcome A) (m2 : build -> outcome B) P1 P2 (f : A -> B -> C) (P : build -> C -> Prop) :
  decides Q1 m1 P1 -> decides Q2 m2 P2 -> (forall bm a b, P1 bm a -> P2 bm b -> P bm (f a b)) ->
  decides (Q1 /\ Q2) (fun bm => a <- m1 bm ;; b <- m2 bm ;; Ok (f a b)) P.
Proof.
  intros D1 D2 H. split.
  - intros [q1 q2] bm. destruct (proj1 D1 q1 bm) as (a & -> & Pa). destruct (proj1 D2 q2 bm) as (b & -> & Pb). cbn [bind]. eexists. split; [reflexivity|]. apply H; assumption.
  - intros N. destruct (decides_settles _ _ _ D1) as [(x & ->)|(a & -> & Y1)]; cbn [bind]; [eexists; reflexivity|].
    destruct (decides_settles _ _ _ D2) as [(x & ->)|(b & -> & Y2)]; cbn [bind]; [eexists; reflexivity|]. exfalso. apply Y1. intros q1. apply Y2. intros q2. apply N. split; assumption.
Qed.
Lemma decides_pair {A B} Q1 Q2 (m1 : build -> outcome A) (m2 : build -> outcome B) P1 P2 : decides Q1 m1 P1 -> decides Q2 m2 P2 ->
  decides (Q1 /\ Q2) (fun bm => a <- m1 bm ;; b <- m2 bm ;; Ok (a, b)) (fun bm p => P1 bm (fst p) /\ P2 bm (snd p)).
Proof. intros D1 D2. exact (decides_then _ _ _ _ _ _ pair _ D1 D2 (fun bm a b H1 H2 => conj H1 H2)). Qed.
Lemma decides_map {A B} Q (m : build -> outcome A) (P : build -> A -> Prop) (f : A -> B) (P' : build -> B -> Prop) : (forall bm a, P bm a -> P' bm (f a)) -> decides Q m P ->
  decides Q (fun bm => a <- m bm ;; Ok (f a)) P'.
Proof.
  intros W [H1 H2]. split.
  - intros q bm. destruct (H1 q bm) as (a & -> & Pa). cbn [bind]. eexists. split; [reflexivity|apply W; exact Pa].
  - intros N. destruct (H2 N) as (x & ->). eexists. reflexivity.
Qed.
Lemma decides_same {A} Q Q' (m m' : build -> outcome A) P : (forall bm, m bm = m' bm) -> (Q <-> Q') -> decides Q m P -> decides Q' m' P.
Proof. intros E [I1 I2] [H1 H2]. split; [intros q bm; rewrite <- E; apply H1; auto|intros N; rewrite <- E; apply H2; auto]. Qed.
Lemma decides_weaken {A} Q (m : build -> outcome A) (P P' : build -> A -> Prop) : (forall bm a, P bm a -> P' bm a) -> decides Q m P -> decides Q m P'.
Proof. intros W [H1 H2]. split; [|exact H2]. intros q bm. destruct (H1 q bm) as (a & E & Pa). exists a. split; [exact E|apply W; exact Pa]. Qed.
Lemma decides_when {A} (c : bool) (Q : Prop) (m : build -> outcome A) P : (c = true -> decides Q m P) ->
  decides (c = true -> Q) (fun bm => if c then o <- m bm ;; Ok (Some o) else Ok None) (fun bm x => if c then exists o, x = Some o /\ P bm o else x = None).
Proof.
  intros D. destruct c; cycle 1. { split; [|intros N; exfalso; apply N; discriminate]. intros _ bm. eexists. split; reflexivity. }
  destruct (D eq_refl) as [H1 H2]. split.
  - intros q bm. destruct (H1 (q eq_refl) bm) as (a & -> & Pa). cbn [bind]. eexists. split; [reflexivity|]. exists a. split; [reflexivity|exact Pa].
  - intros N. destruct H2 as (x & ->); [|eexists; reflexivity]. intros q. apply N. intros _. exact q.
Qed.
Lemma decides_needs {A} v n (m : build -> outcome A) P : needs v n m P -> decides (n <= size v) m P.
Proof. intros [H1 H2]. split; [exact H1|]. intros N. apply H2. lia. Qed.
Lemma decides_if {A} (c : bool) (m : outcome A) (P : build -> A -> Prop) : (if c then exists o, m = Ok o /\ forall bm, P bm o else exists e, m = Throw e) ->
  decides (c = true) (fun _ => m) P.
Proof.
  destruct c; intros H; split; try discriminate.
  - intros _ bm. destruct H as (o & E & W). exists o. split; [exact E|apply W].
  - intros N. congruence.
  - intros _. exact H.
Qed.

Section Table.
  Context (d : tdata).
  Hypothesis Lj : len (d_jxs d) = 32.
  Hypothesis Lx : len (d_xss d) < 2 ^ 31.
  Hypothesis Hj : forall x, In x (d_jxs d) -> 0 <= x < 2 ^ 31.
  Lemma placed_inside k v : placed d k v -> inside v.
  Proof. intros (s & _ & Hs & B & V1 & V2 & _). unfold inside, framed, max_words. rewrite B. pose proof (len_nonneg (d_xss d)). lia. Qed.
  Lemma placed_block bm k v : 1 <= k <= 32 -> placed d k v -> pa_block bm d k = Ok (vbeg v, vend v) /\ tview d (vbeg v) (vend v) = v.
  Proof.
    intros Hk (s & E & Hs & B & V1 & V2 & V3). split; [|destruct v; cbn in *; subst; reflexivity].
    unfold pa_block, d_JXS. rewrite (fetch_at bm (d_jxs d) k s) by (assumption || lia). cbn [bind]. pose proof (Hj s (nth_error_In _ _ E)) as Bs. rewrite u64_small by lia.
    cbv zeta. destruct (Z.eqb_spec s 0) as [X|_]; [lia|]. cbn [negb].
    rewrite find_same by (try lia; intros x Hx; apply Hj; exact (in_skipn _ _ _ Hx)).
    destruct (find _ _) as [x|] eqn:F; cycle 1.
    { cbn [Z.eqb negb]. rewrite V1, V3. reflexivity. }
    apply find_some in F as [F1 F2]. apply in_skipn in F1. pose proof (Hj x F1). rewrite u64_small by lia.
    destruct (Z.eqb_spec x 0) as [X|_]; [lia|]. cbn [negb]. rewrite V1, V3. reflexivity.
  Qed.
End Table.

(** [arrays n m o]: [m] arrays of [n] values *)
Definition arrays bm (n m : Z) (o : arrayData) : Prop := ad_n o = n /\ ad_m o = m /\ forall i, 1 <= i <= m -> returns (ad_darray bm o i) n.
Lemma array_decides v n m : inside v -> 0 <= n -> 0 <= m < 2 ^ 32 -> n * m < 2 ^ 32 -> decides (n * m <= size v) (fun _ => ad_make v n m) (fun bm o => arrays bm n m o).
Proof.
  intros I Hn Hm B. destruct (C50_array_data v n m I Hn Hm B) as [A1 A2]. split; [|intros N; apply A2; lia].
  intros L bm. destruct (A1 L bm) as (o & E & X & _). exists o. split; [exact E|]. unfold ad_make in E. destruct (ad_verifySize v n m); cbn [bind] in E; try discriminate. apply Ok_inj in E. subst o.
  split; [reflexivity|]. split; [reflexivity|exact X].
Qed.

(** The blocks of a photoatomic table with [nes] energies, [nflo] fluorescence lines and [nsh] shells, and without electron data (NEPR is 0). *)
Definition photoatomic_states (d : tdata) (V : Z -> view) (nes nflo nsh : Z) : Prop :=
  len (d_nxs d) = 16 /\ len (d_jxs d) = 32 /\ len (d_xss d) < 2 ^ 31 /\ (forall x, In x (d_jxs d) -> 0 <= x < 2 ^ 31)
  /\ nth_error (d_nxs d) 2 = Some nes /\ nth_error (d_nxs d) 3 = Some nflo /\ nth_error (d_nxs d) 4 = Some nsh /\ nth_error (d_nxs d) 5 = Some 0
  /\ 0 <= nes < 2 ^ 29 /\ 0 <= nflo < 2 ^ 30 /\ 0 <= nsh < 2 ^ 30
  /\ placed d 1 (V 1) /\ placed d 2 (V 2) /\ placed d 3 (V 3) /\ placed d 5 (V 5)
  /\ (0 < nflo -> placed d 4 (V 4))
  /\ (0 < nsh -> placed d 6 (V 6) /\ placed d 8 (V 8) /\ placed d 9 (V 9) /\ placed d 10 (V 10) /\ vbeg (V 6) <= vend (V 8) /\ vbeg (V 9) <= vbeg (V 10)).
(** EPS has the words of blocks 6, 7 and 8; SWD those of blocks 9 and 10, of which the latter are the distributions. *)
Theorem C50_photoatomic_table zaid d V nes nflo nsh (loc cnt : Z -> Z) : zaid <> [] -> photoatomic_states d V nes nflo nsh ->
  let shells := View (d_xss d) (vbeg (V 6)) (vend (V 8)) in
  let swd := View (d_xss d) (vbeg (V 9)) (vend (V 10)) in
  let off := vbeg (V 10) - vbeg (V 9) in
  (0 < nsh -> (forall i, 1 <= i <= nsh -> states swd i (loc i) /\ 1 <= loc i < 2 ^ 31) /\ (forall i, 1 <= i < nsh -> loc i <= loc (i + 1))
     /\ (forall i, 1 <= i <= nsh -> states (entry swd off nsh loc i) 2 (cnt i) /\ 0 <= cnt i < 2 ^ 30)) ->
  decides (last zaid "0"%char = "p"%char /\ nes * 5 <= size (V 1) /\ (size (V 2) = 21 \/ size (V 2) mod 2 = 0) /\ (size (V 3) = 110 \/ size (V 3) mod 3 = 0)
           /\ (0 < nflo -> nflo * 4 <= size (V 4)) /\ nes <= size (V 5)
           /\ (0 < nsh -> nsh * 3 <= size shells /\ block_fits swd off nsh loc (fun i => 2 + 3 * cnt i)))
    (fun bm => pa_make bm zaid d)
    (fun bm t => arrays bm nes 5 (pt_eszg t) /\ arrays bm nes 1 (pt_lhnm t)
       /\ (returns (ji_momentum bm (pt_jinc t)) (ji_NM (pt_jinc t)) /\ returns (ji_values bm (pt_jinc t)) (ji_NM (pt_jinc t)))
       /\ (returns (ji_momentum bm (pt_jcoh t)) (ji_NM (pt_jcoh t)) /\ returns (jc_integrated bm (pt_jcoh t)) (ji_NM (pt_jcoh t)) /\ returns (jc_factors bm (pt_jcoh t)) (ji_NM (pt_jcoh t)))
       /\ (if 0 <? nflo then exists o, pt_jflo t = Some o /\ arrays bm nflo 4 o else pt_jflo t = None)
       /\ (if 0 <? nsh then (exists o, pt_eps t = Some o /\ arrays bm nsh 3 o)
             /\ exists o, pt_swd t = Some o /\ bl_n o = nsh /\ forall i, 1 <= i <= nsh -> exists x, bl_datum bm o i = Ok x
                  /\ tp_numberValues bm x = Ok (cnt i) /\ returns (tp_values bm x) (cnt i) /\ returns (tp_pdf bm x) (cnt i) /\ returns (tp_cdf bm x) (cnt i)
           else pt_eps t = None /\ pt_swd t = None)
       /\ pt_elas t = None /\ pt_subsh t = None /\ pt_eion t = []).
Proof.
  intros Hz (Ln & Lj & Lx & Hj & N3 & N4 & N5 & N6 & B3 & B4 & B5 & P1 & P2 & P3 & P5 & P4 & P6) shells swd off Hw.
  assert (Ins := fun k v => placed_inside d Lx Hj k v). assert (Bl := fun bm k v => placed_block d Lj Hj bm k v).
  pose proof (len_nonneg (d_xss d)) as Nx.
  destruct (C50_sizes_from_words (V 2) (Ins _ _ P2)) as (_ & S2 & _). destruct (C50_sizes_from_words (V 3) (Ins _ _ P3)) as (_ & _ & S3).
  pose proof (array_decides (V 1) nes 5 (Ins _ _ P1) ltac:(lia) ltac:(lia) ltac:(lia)) as D1.
  pose proof (decides_if _ _ _ S2) as D2. pose proof (decides_if _ _ _ S3) as D3.
  pose proof (array_decides (V 5) nes 1 (Ins _ _ P5) ltac:(lia) ltac:(lia) ltac:(lia)) as D5.
  assert (D4 : decides (0 <? nflo = true -> nflo * 4 <= size (V 4)) (fun bm => if 0 <? nflo then o <- ad_make (V 4) nflo 4 ;; Ok (Some o) else Ok None) (fun bm x => if 0 <? nflo then exists o, x = Some o /\ arrays bm nflo 4 o else x = None)).
  { apply decides_when. intros K. apply array_decides; try lia. apply (Ins 4). apply P4. lia. }
  assert (D6 : decides (0 <? nsh = true -> nsh * 3 <= size shells /\ block_fits swd off nsh loc (fun i => 2 + 3 * cnt i))
     (fun bm => if 0 <? nsh then o <- (eps <- ad_make shells nsh 3 ;; s <- bl_make bm (swd_gd bm) swd (vbeg swd + off) nsh true ;; Ok (eps, s)) ;; Ok (Some o) else Ok None)
     (fun bm x => if 0 <? nsh then exists o, x = Some o /\ arrays bm nsh 3 (fst o) /\ bl_n (snd o) = nsh /\ (forall i, 1 <= i <= nsh -> exists x, bl_datum bm (snd o) i = Ok x
                  /\ tp_numberValues bm x = Ok (cnt i) /\ returns (tp_values bm x) (cnt i) /\ returns (tp_pdf bm x) (cnt i) /\ returns (tp_cdf bm x) (cnt i)) else x = None)).
  { apply (decides_when (0 <? nsh) _ _ (fun bm (o : arrayData * blockWithLocators view) => arrays bm nsh 3 (fst o) /\ bl_n (snd o) = nsh /\ (forall i, 1 <= i <= nsh -> exists x, bl_datum bm (snd o) i = Ok x
                  /\ tp_numberValues bm x = Ok (cnt i) /\ returns (tp_values bm x) (cnt i) /\ returns (tp_pdf bm x) (cnt i) /\ returns (tp_cdf bm x) (cnt i)))).
    intros K. destruct (P6 ltac:(lia)) as (X1 & X2 & X3 & X4 & X5 & X6). destruct (Hw ltac:(lia)) as (W1 & W2 & W3).
    pose proof (Ins _ _ X1) as [(E1 & E2 & E3) E4]. pose proof (Ins _ _ X2) as [(F1 & F2 & F3) F4]. pose proof (Ins _ _ X3) as [(G1 & G2 & G3) G4]. pose proof (Ins _ _ X4) as [(H1 & H2 & H3) H4].
    assert (Y2 : vend (V 8) <= len (d_xss d)) by (destruct X2 as (? & _ & _ & _ & _ & Y & _); lia).
    assert (Y4 : vend (V 10) <= len (d_xss d)) by (destruct X4 as (? & _ & _ & _ & _ & Y & _); lia).
    unfold max_words in *.
    assert (I1 : inside shells) by (unfold inside, framed, shells, max_words; cbn; lia).
    assert (I2 : inside swd) by (unfold inside, framed, swd, max_words; cbn; lia).
    destruct (C50_block_SWD swd off nsh loc cnt I2) as [Z1 Z2]; try assumption; [unfold size, off; cbn [vbeg vend swd]; lia|lia|].
    refine (decides_then _ _ _ _ _ _ _ _ (array_decides shells nsh 3 I1 ltac:(lia) ltac:(lia) ltac:(lia)) (conj Z1 Z2) _).
    intros bm a b Pa Pb. cbn [fst snd]. split; [exact Pa|exact Pb]. }
  assert (Vt : verifyType ["p"%char] zaid = throw_if (negb (Ascii.eqb (last zaid "0"%char) "p")) StdException).
  { unfold verifyType. destruct (exists_last Hz) as (l & c & ->). rewrite rev_unit, last_last. cbn [existsb]. rewrite orb_false_r. reflexivity. }
  assert (D0 : decides (last zaid "0"%char = "p"%char) (fun _ => verifyType ["p"%char] zaid) (fun _ _ => True)).
  { rewrite Vt. destruct (Ascii.eqb_spec (last zaid "0"%char) "p"%char) as [Y|Y]; split; try tauto.
    - intros _ bm. exists tt. split; [reflexivity|exact Logic.I].
    - intros _. eexists. reflexivity. }
  pose proof (decides_pair _ _ _ _ _ _ D0 (decides_pair _ _ _ _ _ _ D1 (decides_pair _ _ _ _ _ _ D2 (decides_pair _ _ _ _ _ _ D3 (decides_pair _ _ _ _ _ _ D4 (decides_pair _ _ _ _ _ _ D5 D6)))))) as T.
  clear D0 D1 D2 D3 D4 D5 D6.
  refine (decides_same _ _ _ _ _ _ _ (decides_map _ _ _ (fun p => let '(_, (eszg, (ji, (jc, (jf, (lh, s)))))) := p in
    PaTable zaid d eszg ji jc jf lh (option_map fst s) (option_map snd s) None None None None None None [] None None None) _ _ T)).
  - intros bm. unfold pa_make. destruct (verifyType _ _) as [u|x|]; cbn [bind]; try reflexivity.
    unfold pa_basic, pa_shells, pa_electrons, pa_NES, pa_NFLO, pa_NSH, pa_NEPR, pa_N, d_NXS, eg_make, lq_make, jf_make, ep_make.
    rewrite (fetch_at bm (d_nxs d) 3 nes), (fetch_at bm (d_nxs d) 4 nflo), (fetch_at bm (d_nxs d) 5 nsh), (fetch_at bm (d_nxs d) 6 0) by (assumption || lia). cbn [bind].
    rewrite !u32_small by lia. cbn [Z.ltb Z.compare].
    destruct (Bl bm 1 (V 1) ltac:(lia) P1) as [-> E1]. destruct (Bl bm 2 (V 2) ltac:(lia) P2) as [-> E2]. destruct (Bl bm 3 (V 3) ltac:(lia) P3) as [-> E3]. destruct (Bl bm 5 (V 5) ltac:(lia) P5) as [-> E5].
    cbn [bind fst snd]. rewrite E1, E2, E3, E5.
    destruct (ad_make (V 1) nes 5); cbn [bind]; try reflexivity. destruct (ji_make (V 2)); cbn [bind]; try reflexivity. destruct (jc_make (V 3)); cbn [bind]; try reflexivity.
    assert (F4 : (if 0 <? nflo then b <- pa_block bm d 4 ;; o <- ad_make (tview d (fst b) (snd b)) nflo 4 ;; Ok (Some o) else Ok None) = (if 0 <? nflo then o <- ad_make (V 4) nflo 4 ;; Ok (Some o) else Ok None)).
    { destruct (Z.ltb_spec 0 nflo) as [K|K]; [|reflexivity]. destruct (Bl bm 4 (V 4) ltac:(lia) (P4 K)) as [-> E4]. cbn [bind fst snd]. rewrite E4. reflexivity. }
    rewrite F4. destruct (if 0 <? nflo then _ else _); cbn [bind]; try reflexivity. destruct (ad_make (V 5) nes 1); cbn [bind]; try reflexivity.
    destruct (Z.ltb_spec 0 nsh) as [K|K]; [|reflexivity]. destruct (P6 K) as (X1 & X2 & X3 & X4 & X5 & X6).
    destruct (Bl bm 6 (V 6) ltac:(lia) X1) as [-> _]. destruct (Bl bm 8 (V 8) ltac:(lia) X2) as [-> _]. destruct (Bl bm 9 (V 9) ltac:(lia) X3) as [-> _]. destruct (Bl bm 10 (V 10) ltac:(lia) X4) as [-> _].
    cbn [bind fst snd]. unfold tview. fold shells swd. destruct (ad_make shells nsh 3); cbn [bind]; try reflexivity.
    replace (vbeg swd + off) with (vbeg (V 10)) by (unfold off; cbn [vbeg swd]; lia). destruct (bl_make _ _ _ _ _ _); reflexivity.
  - assert (Y1 : size (V 1) = size (V 1)) by reflexivity. rewrite !orb_true_iff, !Z.eqb_eq, !Z.ltb_lt, Z.mul_1_r. reflexivity.
  - intros bm (u & eszg & ji & jc & jf & lh & s). cbn [fst snd]. intros (_ & A1 & A2 & A3 & A4 & A5 & A6). cbn [pt_eszg pt_lhnm pt_jinc pt_jcoh pt_jflo pt_eps pt_swd pt_elas pt_subsh pt_eion].
    split; [exact A1|]. split; [exact A5|]. split; [exact A2|]. split; [exact A3|]. split; [exact A4|]. split; [|repeat split].
    destruct (0 <? nsh); [|subst s; split; reflexivity]. destruct A6 as ([a b] & -> & Y1 & Y2). cbn [option_map fst snd] in *. split; [exists a; split; [reflexivity|exact Y1]|exists b; split; [reflexivity|exact Y2]].
Qed.
Print Assumptions C50_photoatomic_table.

(** one energy, one fluorescence line, one shell *)
Definition one_shell : tdata :=
  TData (zeros 16) (dzeros 16) ([24; 1; 1; 1; 1] ++ zeros 11) ([1; 6; 8; 11; 15; 16; 17; 18; 19; 20] ++ zeros 22)
    (map dbl [1; 2; 3; 4; 5; 1; 1; 1; 2; 3; 1; 2; 3; 4; 9; 2; 7; 1; 1; 2; 1; 5; 1; 1]).
Definition one_shell_blocks (k : Z) : view :=
  View (d_xss one_shell) (nth (Z.to_nat (k - 1)) (d_jxs one_shell) 0 - 1) (if k =? 10 then 24 else nth (Z.to_nat k) (d_jxs one_shell) 0 - 1).
Example photoatomic_table_met : let V := one_shell_blocks in
  let shells := View (d_xss one_shell) (vbeg (V 6)) (vend (V 8)) in
  let swd := View (d_xss one_shell) (vbeg (V 9)) (vend (V 10)) in
  let off := vbeg (V 10) - vbeg (V 9) in
  photoatomic_states one_shell V 1 1 1 /\ states swd 1 1 /\ states (entry swd off 1 (fun _ => 1) 1) 2 1
  /\ 1 * 5 = size (V 1) /\ size (V 2) mod 2 = 0 /\ size (V 3) mod 3 = 0 /\ 1 * 4 = size (V 4) /\ 1 = size (V 5) /\ 1 * 3 = size shells /\ block_fits swd off 1 (fun _ => 1) (fun _ => 2 + 3 * 1)
  /\ (forall bm, exists t, pa_make bm ["p"%char] one_shell = Ok t)
  /\ exists x, pa_make Debug ["p"%char] (TData (zeros 16) (dzeros 16) (d_nxs one_shell) (d_jxs one_shell) (firstn 23 (d_xss one_shell))) = Throw x.
Proof.
  cbv zeta. split.
  { unfold photoatomic_states. split; [reflexivity|]. split; [reflexivity|]. split; [reflexivity|].
    split. { intros x H. cbn in H. repeat destruct H as [<- | H]; try (split; [discriminate|reflexivity]). contradiction. }
    do 4 (split; [reflexivity|]). do 3 (split; [lia|]). split; [loc 1|]. split; [loc 6|]. split; [loc 8|]. split; [loc 15|]. split; [intros _; loc 11|]. intros _.
    split; [loc 16|]. split; [loc 18|]. split; [loc 19|]. split; [loc 20|]. split; vm_compute; discriminate. }
  split; [stated|]. split; [stated|]. do 6 (split; [reflexivity|]). 
  split; [split; [vm_compute; discriminate|intros i Hi; assert (i = 1) as -> by lia; split; [split; vm_compute; discriminate|vm_compute; discriminate]]|].
  split; [intros [|]; eexists; vm_compute; reflexivity|]. eexists. vm_compute. reflexivity.
Qed.
