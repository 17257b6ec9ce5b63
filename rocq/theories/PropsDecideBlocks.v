(** C50, continued: blocks of angular distributions, of photon production and of secondary particle production. *)
From Coq Require Import ZArith Bool List Lia.
From Verif Require Import PropLemmasBasic Truncated NuBlock AtomicBlocks ElectronBlocks ThermalBlocks Accepted Decide PropsDecide DecideMore AngularBlock DecideBlocks.
Import ListNotations.
Open Scope Z_scope.

(** Blocks of angular distributions (AND, ANDP, ANDH) for [nr] reactions, after the elastic one if [zero]: n locators, the data
    of the j-th one, if it is positive, at k + loc j; k is the distance to the data given to the constructor.  The angular data
    of an entry are the [ne j] energies with the locators [aloc j i] and, for tables, the [cnt j i] cosines. *)
Theorem C50_block_AND v nr k zero (loc ne : Z -> Z) (aloc cnt : Z -> Z -> Z) :
  let z := if zero : bool then 1 else 0 in
  let n := nr + z in
  let entry := part v n (fun j => k + loc j) in
  inside v -> 0 <= nr < 2 ^ 29 -> 0 <= k < 2 ^ 31 ->
  (forall j, 1 <= j <= n -> states v j (loc j) /\ -1 <= loc j < 2 ^ 31) ->
  (forall j, 1 <= j <= n -> 0 < loc j -> states (entry j) 1 (ne j) /\ 0 <= ne j < 2 ^ 29) ->
  (forall j i, 1 <= j <= n -> 0 < loc j -> 1 <= i <= ne j -> states (entry j) (1 + ne j + i) (aloc j i) /\ - 2 ^ 31 < aloc j i < 2 ^ 31) ->
  (forall j i, 1 <= j <= n -> 0 < loc j -> 1 <= i <= ne j -> aloc j i < 0 ->
    states (part (entry j) (ne j) (fun i => angular_start (loc j) (aloc j i)) i) 2 (cnt j i) /\ 0 <= cnt j i < 2 ^ 30) ->
  decides (and_fits v n k loc ne aloc cnt) (fun bm => ab_make bm v (vbeg v + k) nr zero)
    (fun bm o => ab_nr o = nr /\ forall j, 1 <= j <= n -> exists d, ab_datum bm o (j - z) = Ok d /\ and_shows bm (loc j) (ne j) (aloc j) (cnt j) d).
Proof. intros z n entry I Hn Hk Hl He Ha Hc. exact (ab_decides v nr k zero loc ne aloc cnt I Hn Hk Hl He Ha Hc). Qed.
Print Assumptions C50_block_AND.

(** Secondary particle production (SIGH): a table behind two words for each entry.  Entries of less than two words are excluded. *)
Theorem C50_block_SIGH v off n (loc nr ne : Z -> Z) : inside v -> 0 <= off <= size v -> 0 <= n < 2 ^ 31 ->
  (forall i, 1 <= i <= n -> states v i (loc i) /\ 1 <= loc i < 2 ^ 31) -> (forall i, 1 <= i < n -> loc i <= loc (i + 1)) ->
  (forall i, 1 <= i <= n -> 2 <= size (entry v off n loc i)) ->
  (forall i, 1 <= i <= n -> states (entry v off n loc i) 3 (nr i) /\ 0 <= nr i < 2 ^ 29 /\ states (entry v off n loc i) (4 + 2 * nr i) (ne i) /\ 0 <= ne i < 2 ^ 29) ->
  decides (block_fits v off n loc (fun i => 4 + 2 * nr i + 2 * ne i)) (fun bm => bl_make bm (sigh_generateData bm) v (vbeg v + off) n true)
    (fun bm o => bl_n o = n /\ forall i, 1 <= i <= n -> exists d, bl_datum bm o i = Ok d /\ pt_v d = entry v off n loc i /\ table_shows bm (pt_tab d) (nr i) (ne i)).
Proof.
  intros I Ho Hn Hl Hu Hs Hc.
  apply (bl_decides sigh_generateData v off n loc (fun i => 4 + 2 * nr i + 2 * ne i) (fun bm i d => pt_v d = entry v off n loc i /\ table_shows bm (pt_tab d) (nr i) (ne i))); auto.
  intros i Hi In. destruct (Hc i Hi) as (S1 & R1 & S2 & R2).
  exact (C50_tables_behind_words _ 2 (nr i) (ne i) In (conj (Z.le_0_2) (Hs i Hi)) R1 R2 S1 S2).
Qed.
Print Assumptions C50_block_SIGH.

(** Photon production (SIGP): the first word of an entry is 13 for cross sections; otherwise it is a table behind two words. *)
Theorem C50_block_SIGP v off n (loc mf cnt nr ne : Z -> Z) : inside v -> 0 <= off <= size v -> 0 <= n < 2 ^ 31 ->
  (forall i, 1 <= i <= n -> states v i (loc i) /\ 1 <= loc i < 2 ^ 31) -> (forall i, 1 <= i < n -> loc i <= loc (i + 1)) ->
  (forall i, 1 <= i <= n -> 2 <= size (entry v off n loc i) /\ states (entry v off n loc i) 1 (mf i) /\ 0 <= mf i < 2 ^ 31) ->
  (forall i, 1 <= i <= n -> mf i = 13 -> states (entry v off n loc i) 3 (cnt i) /\ 0 <= cnt i < 2 ^ 30) ->
  (forall i, 1 <= i <= n -> mf i <> 13 ->
     states (entry v off n loc i) 3 (nr i) /\ 0 <= nr i < 2 ^ 29 /\ states (entry v off n loc i) (4 + 2 * nr i) (ne i) /\ 0 <= ne i < 2 ^ 29) ->
  decides (block_fits v off n loc (fun i => if mf i =? 13 then 3 + cnt i else 4 + 2 * nr i + 2 * ne i))
    (fun bm => bl_make bm (sigp_generateData bm) v (vbeg v + off) n true)
    (fun bm o => bl_n o = n /\ forall i, 1 <= i <= n -> exists d, bl_datum bm o i = Ok d /\
       if mf i =? 13 then exists x, d = PPCrossSection x /\ px_numberValues bm x = Ok (cnt i) /\ returns (px_crossSections bm x) (cnt i)
       else exists t, d = PPMultiplicity t /\ pt_v t = entry v off n loc i /\ table_shows bm (pt_tab t) (nr i) (ne i)).
Proof.
  intros I Ho Hn Hl Hu Hs Hx Ht.
  apply (bl_decides sigp_generateData v off n loc (fun i => if mf i =? 13 then 3 + cnt i else 4 + 2 * nr i + 2 * ne i)
    (fun bm i d => if mf i =? 13 then exists x, d = PPCrossSection x /\ px_numberValues bm x = Ok (cnt i) /\ returns (px_crossSections bm x) (cnt i)
       else exists t, d = PPMultiplicity t /\ pt_v t = entry v off n loc i /\ table_shows bm (pt_tab t) (nr i) (ne i))); auto.
  intros i Hi In. destruct (Hs i Hi) as (S & Sm & Rm). assert (L1 : 1 <= 1 <= size (entry v off n loc i)) by lia.
  destruct (states_holds _ 1 (mf i) In Sm L1) as (w & W & Hw). rewrite Z.add_simpl_r in W. unfold sigp_generateData. rewrite W. cbn [bind].
  rewrite (to_int_whole w (mf i) Hw) by lia. cbn [bind]. destruct (Z.eqb_spec (mf i) 13) as [E|E].
  - destruct (Hx i Hi E) as (S3 & R3). destruct (C50_photon_cross_sections _ (cnt i) In S3 R3) as [A B]. split.
    + intros L bm. destruct (A L bm) as (x & -> & X). exists (PPCrossSection x). split; [reflexivity|]. exists x. auto.
    + intros L. destruct (B L) as (e & ->). eexists. reflexivity.
  - destruct (Ht i Hi E) as (S1 & R1 & S2 & R2).
    destruct (C50_tables_behind_words _ 2 (nr i) (ne i) In (conj (Z.le_0_2) S) R1 R2 S1 S2) as [A B]. unfold ts_make. split.
    + intros L bm. destruct (A L bm) as (x & -> & X & Y). exists (PPMultiplicity x). split; [reflexivity|]. exists x. auto.
    + intros L. destruct (B L) as (e & ->). eexists. reflexivity.
Qed.
Print Assumptions C50_block_SIGP.

(** An entry of SIGP without words is not rejected: its first word is read without a check, here behind the vector. *)
Theorem C50_empty_entry_refuted : let v := own (map dbl [1]) in
  inside v /\ states v 1 1 /\ size (entry v 1 1 (fun _ => 1) 1) = 0 /\ bl_make Debug (sigp_generateData Debug) v (vbeg v + 1) 1 true = UB.
Proof.
  cbv zeta. split; [apply own_inside; reflexivity|]. split; [stated|]. split; [reflexivity|]. vm_compute. reflexivity.
Qed.
Print Assumptions C50_empty_entry_refuted.

(** ** Cases *)

(** AND with elastic scattering given as one table, then an isotropic reaction and one given elsewhere *)
Definition and_words : list double := map dbl [1; 0; -1; 1; 5; -4; 2; 1; 7; 8; 9].
Definition and_locs (j : Z) : Z := if j =? 1 then 1 else if j =? 2 then 0 else -1.
Lemma three_cases (P : Z -> Prop) : P 1 -> P 2 -> P 3 -> forall i, 1 <= i <= 3 -> P i.
Proof. intros H1 H2 H3 i Hi. assert (E : i = 1 \/ i = 2 \/ i = 3) by lia. destruct E as [-> |[-> | ->]]; assumption. Qed.
Example and_met : let v := own and_words in let entry := part v 3 (fun j => 3 + and_locs j) in
  inside v /\ (forall j, 1 <= j <= 2 + 1 -> states v j (and_locs j) /\ -1 <= and_locs j < 2 ^ 31)
  /\ (forall j, 1 <= j <= 2 + 1 -> 0 < and_locs j -> states (entry j) 1 1)
  /\ (forall j i, 1 <= j <= 2 + 1 -> 0 < and_locs j -> 1 <= i <= 1 -> states (entry j) (1 + 1 + i) (-4))
  /\ (forall j i, 1 <= j <= 2 + 1 -> 0 < and_locs j -> 1 <= i <= 1 -> states (part (entry j) 1 (fun i => angular_start (and_locs j) (-4)) i) 2 1)
  /\ and_fits v 3 3 and_locs (fun _ => 1) (fun _ _ => -4) (fun _ _ => 1)
  /\ forall bm, exists o, ab_make bm v 3 2 true = Ok o.
Proof.
  cbv zeta. split; [apply own_inside; reflexivity|].
  split; [refine (three_cases _ _ _ _); (split; [stated|split; vm_compute; (discriminate || reflexivity)])|].
  split; [refine (three_cases _ _ _ _); intros X; (stated || (exfalso; discriminate X))|].
  split; [intros j i Hj X Hi; assert (i = 1) as -> by lia; revert j Hj X; refine (three_cases _ _ _ _); intros X; (stated || (exfalso; discriminate X))|].
  split; [intros j i Hj X Hi; assert (i = 1) as -> by lia; revert j Hj X; refine (three_cases _ _ _ _); intros X; (stated || (exfalso; discriminate X))|].
  split; [split; [lia|split; [vm_compute; discriminate|]]|].
  - refine (three_cases _ _ _ _); intros X; [|exfalso; discriminate X|exfalso; discriminate X]. split; [vm_compute; discriminate|]. split; [vm_compute; discriminate|].
    split; [vm_compute; discriminate|]. intros i Hi _. assert (i = 1) as -> by lia. split; [vm_compute; split; discriminate|]. split; vm_compute; discriminate.
  - intros [|]; eexists; vm_compute; reflexivity.
Qed.
(** without the last word the table of the elastic one does not fit *)
Example and_short : let v := own (removelast and_words) in
  ~ and_fits v 3 3 and_locs (fun _ => 1) (fun _ _ => -4) (fun _ _ => 1) /\ ab_make Debug v 3 2 true = Throw StdException.
Proof.
  split; [|vm_compute; reflexivity]. intros (_ & _ & F). destruct (F 1 ltac:(lia) eq_refl) as (_ & _ & _ & G).
  destruct (G 1 ltac:(lia)) as (_ & _ & H); [discriminate|]. vm_compute in H. apply H. reflexivity.
Qed.

(** SIGP with cross sections and a table of yields *)
Definition sigp_words : list double := map dbl [1; 5; 13; 1; 1; 50; 12; 102; 0; 1; 3; 4].
Definition sigp_locs (i : Z) : Z := if i =? 1 then 1 else 5.
Definition sigp_mf (i : Z) : Z := if i =? 1 then 13 else 12.
Example sigp_met : let v := own sigp_words in let e := entry v 2 2 sigp_locs in
  inside v /\ (forall i, 1 <= i <= 2 -> states v i (sigp_locs i) /\ 1 <= sigp_locs i < 2 ^ 31) /\ (forall i, 1 <= i < 2 -> sigp_locs i <= sigp_locs (i + 1))
  /\ (forall i, 1 <= i <= 2 -> 2 <= size (e i) /\ states (e i) 1 (sigp_mf i))
  /\ (forall i, 1 <= i <= 2 -> sigp_mf i = 13 -> states (e i) 3 1)
  /\ (forall i, 1 <= i <= 2 -> sigp_mf i <> 13 -> states (e i) 3 0 /\ states (e i) (4 + 2 * 0) 1)
  /\ block_fits v 2 2 sigp_locs (fun i => if sigp_mf i =? 13 then 3 + 1 else 4 + 2 * 0 + 2 * 1)
  /\ forall bm, exists o, bl_make bm (sigp_generateData bm) v 2 2 true = Ok o.
Proof.
  cbv zeta. split; [apply own_inside; reflexivity|].
  split; [apply two_cases; (split; [stated|split; vm_compute; (discriminate || reflexivity)])|].
  split; [intros i Hi; assert (E : i = 1) by lia; rewrite E; vm_compute; discriminate|].
  split; [apply two_cases; (split; [vm_compute; discriminate|stated])|].
  split; [refine (two_cases _ _ _); intros X; (stated || (exfalso; discriminate X))|].
  split; [refine (two_cases _ _ _); intros X; [exfalso; apply X; reflexivity|split; stated]|].
  split; [split; [lia|apply two_cases; (split; [split; vm_compute; discriminate|vm_compute; discriminate])]|].
  intros [|]; eexists; vm_compute; reflexivity.
Qed.
Example sigp_short : let v := own (removelast sigp_words) in
  ~ block_fits v 2 2 sigp_locs (fun i => if sigp_mf i =? 13 then 3 + 1 else 4 + 2 * 0 + 2 * 1) /\ bl_make Debug (sigp_generateData Debug) v 2 2 true = Throw StdException.
Proof.
  split; [|vm_compute; reflexivity]. intros [_ H]. destruct (H 2 ltac:(lia)) as [_ X]. apply X. vm_compute. reflexivity.
Qed.
(** SIGH with one table *)
Example sigh_met : let v := own (map dbl [1; 12; 102; 0; 1; 3; 4]) in let e := entry v 1 1 (fun _ => 1) 1 in
  inside v /\ states v 1 1 /\ 2 <= size e /\ states e 3 0 /\ states e (4 + 2 * 0) 1 /\ block_fits v 1 1 (fun _ => 1) (fun _ => 4 + 2 * 0 + 2 * 1).
Proof.
  cbv zeta. split; [apply own_inside; reflexivity|]. split; [stated|]. split; [vm_compute; discriminate|]. split; [stated|]. split; [stated|].
  split; [lia|]. intros i Hi. assert (i = 1) as -> by lia. split; [split; vm_compute; discriminate|vm_compute; discriminate].
Qed.
