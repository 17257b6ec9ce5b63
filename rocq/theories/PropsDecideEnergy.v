(** C50, continued: energy distributions of one law, and the DLW, DLWH and DLWP blocks of these. *)
From Coq Require Import ZArith Bool List Lia.
From Coq Require Import ZifyBool ZifyNat.
From Verif Require Import PropLemmasBasic Truncated NuBlock AtomicBlocks ElectronBlocks ThermalBlocks Accepted Decide PropsDecide DecideMore PropsDecideMore PropsDecideThermal DlwBlock DecideEnergy.
Import ListNotations.
Open Scope Z_scope.

(** The data of a law: all laws but 61, whose inner locators are not checked (C50_energy_angle_locators_refuted); an unknown law is rejected.
    The law number selects the kind of the distribution. *)
Theorem C50_energy_laws v idat lo hi law fits shows : inside v -> law_data v idat lo hi law fits shows ->
  decides fits (fun bm => ed_read bm law idat lo hi v) shows.
Proof. exact (law_decides v idat lo hi law fits shows). Qed.
Print Assumptions C50_energy_laws.

(** An energy distribution of one law at a locator: its words about law, data and validity are there *)
Theorem C50_energy_distribution v locator fits shows : inside v -> 0 <= locator < 2 ^ 31 -> single v locator fits shows ->
  decides fits (fun bm => en_read bm locator v) (fun bm o => exists d, o = Single d /\ shows bm d).
Proof. exact (single_decides v locator fits shows). Qed.
Print Assumptions C50_energy_distribution.

(** DLWH and DLWP, with the frames of a TYRH block if there is one *)
Theorem C50_block_DLWH v off n t (loc : Z -> Z) (fits : Z -> Prop) (shows : Z -> build -> ed_obj -> Prop) :
  inside v -> 0 <= off <= size v -> 0 <= n < 2 ^ 31 ->
  (forall i, 1 <= i <= n -> states v i (loc i) /\ 1 <= loc i < 2 ^ 31) -> (forall i, 1 <= i < n -> loc i <= loc (i + 1)) ->
  (forall i, 1 <= i <= n -> inside (entry v off n loc i) -> single (entry v off n loc i) (loc i) (fits i) (shows i)) ->
  (forall frames, t = Some frames -> n <= len (ty_frames frames)) ->
  decides (n <= off /\ forall i, 1 <= i <= n -> 1 <= off + loc i <= size v + 1 /\ (i < n -> off + loc (i + 1) <= size v + 1) /\ fits i)
    (fun bm => dh_make bm v (vbeg v + off) n t)
    (fun bm o => dh_NR o = n /\ forall i, 1 <= i <= n -> exists d, dh_distribution bm o i = Ok (Single d) /\ shows i bm d).
Proof.
  intros I Ho Hn Hl Hu He Hf.
  assert (D : decides (n <= off /\ forall i, 1 <= i <= n -> 1 <= off + loc i <= size v + 1 /\ (i < n -> off + loc (i + 1) <= size v + 1) /\ fits i)
    (fun bm => bl_make bm (dh_generateData bm) v (vbeg v + off) n true)
    (fun bm o => bl_n o = n /\ forall i, 1 <= i <= n -> exists d, bl_datum bm o i = Ok d /\ exists e, d = Single e /\ shows i bm e)).
  { apply (located_decides dh_generateData v off n loc fits (fun bm i d => exists e, d = Single e /\ shows i bm e)); auto.
    intros i Hi In. destruct (Hl i Hi) as [_ R]. pose proof (single_decides _ (loc i) (fits i) (shows i) In ltac:(lia) (He i Hi In)) as S.
    unfold dh_generateData. destruct (Z.eqb_spec (loc i) 0); [lia|]. exact S. }
  assert (F : exists fs, dh_generateFrames t n = Ok fs).
  { unfold dh_generateFrames. destruct t as [f|]; [|eauto]. pose proof (Hf f eq_refl). destruct (Z.ltb_spec (len (ty_frames f)) n); [lia|eauto]. }
  destruct F as [fs F]. unfold dh_make. rewrite F. revert D. apply decides_into. intros bm o [N W]. split; [exact N|].
  intros i Hi. destruct (W i Hi) as (d & E & e & -> & S). exists e. split; [exact E|exact S].
Qed.
Print Assumptions C50_block_DLWH.

(** DLW: the i-th entry begins at word n + loc i and ends in front of the next entry, of the multiplicities of the next entry (if its
    multiplicity in TYR is larger than 100), or with the block.  A locator 0 is rejected. *)
Theorem C50_block_DLW v off n t (loc mult mr me : Z -> Z) (fits : Z -> Prop) (shows : Z -> build -> ed_obj -> Prop) :
  inside v -> 0 <= off <= size v -> 0 <= n < 2 ^ 29 ->
  n <= ty_ntr t < 2 ^ 31 /\ n <= len (ty_frames t) ->
  (forall i, 1 <= i <= n -> nth_error (ty_mults t) (Z.to_nat (i - 1)) = Some (mult i) /\ 0 <= mult i < 2 ^ 31) ->
  (forall i, 1 <= i <= n -> states v i (loc i) /\ 0 <= loc i < 2 ^ 31) ->
  let stop := dlw_stop v n loc mult in
  let entry := dlw_entry v n loc mult in
  let table := dlw_table v n loc mult in
  (forall i, 1 <= i <= n -> n + loc i <= size v + 1 -> n + loc i <= stop i) ->
  (forall i, 1 <= i <= n -> 100 < mult i -> mult i - 100 <= loc i) ->
  (forall i, 1 <= i <= n -> 1 <= loc i -> inside (entry i) -> single (entry i) (loc i) (fits i) (shows i)) ->
  (forall i, 1 <= i <= n -> 100 < mult i -> inside (table i) ->
     states (table i) 1 (mr i) /\ 0 <= mr i < 2 ^ 29 /\ states (table i) (2 + 2 * mr i) (me i) /\ 0 <= me i < 2 ^ 29) ->
  decides
    (n <= off /\ forall i, 1 <= i <= n -> 1 <= loc i /\ n + loc i <= size v + 1 /\ stop i <= size v + 1 /\ fits i
       /\ (100 < mult i -> 2 + 2 * mr i + 2 * me i <= size (table i)))
    (fun bm => dl_make bm v (vbeg v + off) t n)
    (fun bm o => dl_NR o = n /\ forall i, 1 <= i <= n ->
       (exists d, dl_distribution bm o i = Ok (Single d) /\ shows i bm d)
       /\ (mult i <= 100 -> dl_multiplicity bm o i = Ok (MuNum (mult i)))
       /\ (100 < mult i -> exists m, dl_multiplicity bm o i = Ok (MuTab m) /\ table_shows bm m (mr i) (me i))).
Proof.
  intros I Ho Hn Ht Hm Hl stop entry table Hu Hb He Htab.
  pose proof (dlw_decides v off n t loc mult mr me fits shows I Ho Hn Hl Ht Hm Hu Hb He Htab) as [A B]. split; [|exact B].
  intros Q bm. destruct (A Q bm) as (o & E & N & W). exists o. split; [exact E|]. split; [exact N|]. intros i Hi.
  destruct (W i Hi) as (d & m & E1 & E2 & (e & X1 & X2) & Y). cbn [fst snd] in X1, Y. subst d. split; [exists e; auto|]. split.
  - intros M. rewrite E2. destruct (Z.ltb_spec 100 (mult i)); [lia|]. rewrite Y. reflexivity.
  - intros M. destruct (Z.ltb_spec 100 (mult i)); [|lia]. destruct Y as (tm & -> & S). exists tm. split; [exact E2|exact S].
Qed.
Print Assumptions C50_block_DLW.

(** The words about law, data and validity are read without any check. *)
Theorem C50_energy_distribution_header_refuted : let v := own (map dbl [0; 3]) in inside v /\ en_read Debug 1 v = UB.
Proof. cbv zeta. split; [apply own_inside; reflexivity|vm_compute; reflexivity]. Qed.
Print Assumptions C50_energy_distribution_header_refuted.
(** N-body data (law 66) are only asked for two words, although their values begin with the fifth. *)
Theorem C50_N_body_words_refuted : let v := own (map dbl [3; 1]) in
  inside v /\ forall bm, exists o, ed_read bm 66 1 (dbl 1) (dbl 2) v = Ok (ONBody o) /\ nb_numberValues Debug o = Throw OutOfRange /\ nb_numberValues Release o = UB.
Proof. cbv zeta. split; [apply own_inside; reflexivity|]. intros bm. eexists. split; [destruct bm; vm_compute; reflexivity|]. split; vm_compute; reflexivity. Qed.
Print Assumptions C50_N_body_words_refuted.

(** ** Cases *)

(** A DLW block of two reactions with level scattering; the second one has a table of multiplicities behind the first. *)
Definition dlw_words : list double :=
  map dbl [1; 16;   0; 3; 10; 0; 2; 1; 20; 1; 1; 5; 7;   0; 1; 4; 8;   0; 3; 25; 0; 2; 3; 20; 1; 1; 6; 9].
Definition dlw_tyr : tyr := Tyr (own (map dbl [1; 112])) 2 [Laboratory; Laboratory] [1; 112].
Definition dlw_locs (i : Z) : Z := if i =? 1 then 1 else 16.
Definition dlw_mults (i : Z) : Z := if i =? 1 then 1 else 112.
Definition level_shows (lo hi : double) (K : two -> ed_obj) bm (o : ed_obj) : Prop :=
  exists d, o = K d /\ two_emin d = lo /\ two_emax d = hi /\ (exists x, two_C1 bm d = Ok x) /\ exists x, two_C2 bm d = Ok x.
Example dlw_met : let v := own dlw_words in let entry := dlw_entry v 2 dlw_locs dlw_mults in let table := dlw_table v 2 dlw_locs dlw_mults in
  inside v /\ (forall i, 1 <= i <= 2 -> nth_error (ty_mults dlw_tyr) (Z.to_nat (i - 1)) = Some (dlw_mults i))
  /\ (forall i, 1 <= i <= 2 -> states v i (dlw_locs i))
  /\ (forall i, 1 <= i <= 2 -> 2 + dlw_locs i <= dlw_stop v 2 dlw_locs dlw_mults i <= size v + 1)
  /\ (forall i, 1 <= i <= 2 -> 100 < dlw_mults i -> dlw_mults i - 100 <= dlw_locs i)
  /\ (forall i, 1 <= i <= 2 -> let data := sub (entry i) (vbeg (entry i) + (dlw_locs i + 9 - dlw_locs i)) (vend (entry i)) in
        2 <= size data /\ single (entry i) (dlw_locs i) (2 <= size data) (level_shows (dbl (if i =? 1 then 1 else 3)) (dbl 20) OLevel))
  /\ (forall i, 1 <= i <= 2 -> 100 < dlw_mults i -> states (table i) 1 0 /\ states (table i) 2 1 /\ 4 <= size (table i)).
Proof.
  cbv zeta.
  assert (C : forall i, 1 <= i <= 2 -> i = 1 \/ i = 2) by (intros; lia).
  split; [apply own_inside; reflexivity|]. split; [intros i Hi; destruct (C i Hi) as [-> | ->]; reflexivity|].
  split; [intros i Hi; destruct (C i Hi) as [-> | ->]; stated|].
  split; [intros i Hi; destruct (C i Hi) as [-> | ->]; vm_compute; split; discriminate|].
  split; [intros i Hi; destruct (C i Hi) as [-> | ->]; vm_compute; discriminate|]. split.
  - intros i Hi. cbv zeta. destruct (C i Hi) as [-> | ->].
    + split; [vm_compute; discriminate|]. exists 3, 10, 0, 2, (dbl 1), (dbl 20).
      repeat (split; [first [stated | vm_compute; reflexivity | vm_compute; split; [discriminate|reflexivity] | vm_compute; split; discriminate]|]).
      exact (Law_two _ _ _ _ 3 OLevel (or_intror (or_introl eq_refl))).
    + split; [vm_compute; discriminate|]. exists 3, 25, 0, 2, (dbl 3), (dbl 20).
      repeat (split; [first [stated | vm_compute; reflexivity | vm_compute; split; [discriminate|reflexivity] | vm_compute; split; discriminate]|]).
      exact (Law_two _ _ _ _ 3 OLevel (or_intror (or_introl eq_refl))).
  - intros i Hi M. destruct (C i Hi) as [-> | ->]; [discriminate M|]. split; [stated|]. split; [stated|]. vm_compute. discriminate.
Qed.
