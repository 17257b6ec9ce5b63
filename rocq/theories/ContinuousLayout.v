(** ContinuousEnergyTable built from blocks: the arrays that are produced. *)
From Coq Require Import ZArith Bool List Lia Ascii.
From Coq Require Import ZifyBool ZifyNat.
From Verif Require Import PropLemmasBasic.
From Verif Require Export ContinuousCheck.
Import ListNotations.
Open Scope Z_scope.

(** * Specification *)

(** The words of a block, and what is to be shown of the block that the table returns *)
Notation claim A := (list double * (A -> Prop))%type.

(** The blocks of one kind of secondary data.  [g_n], [b_n], [q_n]: number of photon production
    reactions, of precursor groups, of reactions producing the particle. *)
Record photonS := PhotonS { g_n : Z; g_gpd : claim arrayData; g_mtrp : claim arrayData; g_sigp : claim (blockWithLocators photonProduction);
  g_andp : claim angularBlock; g_dlwp : claim dlwh; g_yp : claim view }.
Record delayedS := DelayedS { b_n : Z; b_dnu : claim nu; b_bdd : claim bdd; b_dned : claim dlwh }.
Record particleS := ParticleS { q_n : Z; q_frames : list frame; q_hpd : claim view; q_mtrh : claim arrayData;
  q_sigh : claim (blockWithLocators prefixedTabulated); q_andh : claim angularBlock; q_dlwh : claim dlwh; q_yh : claim view }.
(** All blocks of a table.  [s_mts]: the reaction numbers; [s_xs]: the words of each cross section;
    [s_frames] and [s_ms]: the reference frames and multiplicities of the reactions with secondary
    neutrons. *)
Record ceS := CeS { s_nes : Z; s_nr : Z; s_mts : list Z; s_xs : list (list double); s_frames : list frame; s_ms : list Z;
  s_esz : claim arrayData; s_nu : option (claim nu); s_mtr : arrayData -> Prop; s_lqr : claim arrayData;
  s_sig : blockWithLocators view -> Prop; s_ang : claim angularBlock; s_dlw : claim dlw;
  s_unr : option (claim unr); s_delayed : option delayedS; s_photon : option photonS;
  s_ptype : claim arrayData; s_particles : list particleS }.

Definition s_ntr (s : ceS) : Z := len (s_mts s).
Definition words_or {A B} (f : A -> claim B) (o : option A) : list double := match o with Some x => fst (f x) | None => [] end.
Definition s_ntype (s : ceS) : Z := len (s_particles s).

(** Frames and multiplicities of all reactions: those without secondary neutrons have multiplicity 0 *)
Definition all_frames (s : ceS) : list frame := s_frames s ++ repeat Laboratory (Z.to_nat (s_ntr s - s_nr s)).
Definition all_ms (s : ceS) : list Z := s_ms s ++ repeat 0 (Z.to_nat (s_ntr s - s_nr s)).

(** The conventional part of the XSS array: the blocks in this order *)
Definition ce_pieces (s : ceS) : list (list double) :=
  [fst (s_esz s); words_or (fun c => c) (s_nu s); map dbl (s_mts s); fst (s_lqr s); ty_layout (all_frames s) (all_ms s);
   bl_layout true (s_xs s); fst (s_ang s); fst (s_dlw s); words_or (fun c => c) (s_unr s);
   words_or b_dnu (s_delayed s); words_or b_bdd (s_delayed s); words_or b_dned (s_delayed s);
   words_or g_gpd (s_photon s); words_or g_mtrp (s_photon s); words_or g_sigp (s_photon s); words_or g_andp (s_photon s);
   words_or g_dlwp (s_photon s); words_or g_yp (s_photon s)].
(** number of words before block k + 1 *)
Definition ce_off (s : ceS) (k : nat) : Z := len (concat (firstn k (ce_pieces s))).
Definition ce_END (s : ceS) : Z := ce_off s 18.

(** Secondary particles *)
Definition part_words (q : particleS) : partW :=
  PartW (q_n q) (fst (q_hpd q)) (fst (q_mtrh q)) (ty_generateXSS_frames (q_frames q)) (fst (q_sigh q)) (fst (q_andh q)) (fst (q_dlwh q)) (fst (q_yh q)).
Definition pw_list (p : partW) : list (list double) := [pw_hpd p; pw_mtrh p; pw_tyrh p; pw_sigh p; pw_andh p; pw_dlwh p; pw_yh p].
Definition pw_words (p : partW) : list double := concat (pw_list p).
Definition pw_off (p : partW) (k : nat) : Z := len (concat (firstn k (pw_list p))).
(** the ten locators of a particle whose blocks come after b words *)
Definition pw_locs (b : Z) (p : partW) : list Z :=
  [b + 1; b + pw_off p 1 + 1; b + pw_off p 2 + 1; b + pw_off p 3 + 1; b + pw_off p 3 + pw_n p + 1; b + pw_off p 4 + 1;
   b + pw_off p 4 + pw_n p + 1; b + pw_off p 5 + 1; b + pw_off p 5 + pw_n p + 1; b + pw_off p 6 + 1].
Fixpoint all_locs (b : Z) (ps : list partW) : list (list Z) :=
  match ps with [] => [] | p :: r => pw_locs b p :: all_locs (b + len (pw_words p)) r end.

Definition parts (s : ceS) : list partW := map part_words (s_particles s).
(** words before the blocks of the first particle *)
Definition ce_base (s : ceS) : Z := ce_END s + len (fst (s_ptype s)) + s_ntype s + 10 * s_ntype s.
Definition ce_second (s : ceS) : list double :=
  match s_particles s with
  | [] => []
  | _ => fst (s_ptype s) ++ map dbl (map pw_n (parts s)) ++ ix_generateXSS (all_locs (ce_base s) (parts s)) ++ concat (map pw_words (parts s))
  end.
(** The XSS array *)
Definition ce_words (s : ceS) : list double := concat (ce_pieces s) ++ ce_second s.

(** The JXS array; [f] is JXS(21) *)
Definition ce_locators (s : ceS) (f : Z) : list Z :=
  let e := ce_off s in
  let ph x := if given (s_photon s) then x else 0 in
  let de x := if given (s_delayed s) then x else 0 in
  let se x := match s_particles s with [] => 0 | _ => x end in
  let ntrp := or0 g_n (s_photon s) in
  [1; (if given (s_nu s) then e 1%nat + 1 else 0); e 2%nat + 1; e 3%nat + 1; e 4%nat + 1; e 5%nat + 1; e 5%nat + s_ntr s + 1; e 6%nat + 1; e 6%nat + s_nr s + 1 + 1;
   e 7%nat + 1; e 7%nat + s_nr s + 1; ph (e 12%nat + 1); ph (e 13%nat + 1); ph (e 14%nat + 1); ph (e 14%nat + ntrp + 1); ph (e 15%nat + 1); ph (e 15%nat + ntrp + 1);
   ph (e 16%nat + 1); ph (e 16%nat + ntrp + 1); ph (e 17%nat + 1); f; ce_END s; (if given (s_unr s) then e 8%nat + 1 else 0);
   de (e 9%nat + 1); de (e 10%nat + 1); de (e 11%nat + 1); de (e 11%nat + or0 b_n (s_delayed s) + 1); 0; 0;
   se (ce_END s + 1); se (ce_END s + len (fst (s_ptype s)) + 1); se (ce_END s + len (fst (s_ptype s)) + s_ntype s + 1)].
(** JXS(21): the position of the fission cross section when there is one *)
Definition ce_fission (s : ceS) (f : Z) : Prop :=
  (In 18 (s_mts s) -> exists k, first_at 18 (s_mts s) k /\ f = ce_off s 5 + s_ntr s + len (concat (firstn k (s_xs s))) + 1)
  /\ (~ In 18 (s_mts s) -> f = 0).

(** The objects handed to the constructor are these blocks *)
Definition opt_in {A} (o : option A) (vw : A -> view) (c : option (claim A)) : Prop :=
  match o, c with None, None => True | Some x, Some c => content (vw x) (fst c) | _, _ => False end.

Record particle_in (h : view) (m : arrayData) (s : blockWithLocators prefixedTabulated) (a : angularBlock) (d : dlwh) (y : view) (q : particleS) : Prop := {
  qi_hpd : content h (fst (q_hpd q)); qi_mtrh : content (ad_v m) (fst (q_mtrh q)); qi_n : mt_NTR m = q_n q;
  qi_sigh : content (bl_v s) (fst (q_sigh q)); qi_andh : content (ab_v a) (fst (q_andh q));
  qi_dlwh : content (bl_v (dh_block d)) (fst (q_dlwh q)); qi_frames : dh_frames d = map Some (q_frames q); qi_yh : content y (fst (q_yh q)) }.

Definition photon_in (i : ceIn) (o : option photonS) : Prop :=
  match o with
  | None => none (ci_gpd i) /\ none (ci_mtrp i) /\ none (ci_sigp i) /\ none (ci_andp i) /\ none (ci_dlwp i) /\ none (ci_yp i)
  | Some g => exists x m s a d y, ci_gpd i = Some x /\ ci_mtrp i = Some m /\ ci_sigp i = Some s /\ ci_andp i = Some a /\ ci_dlwp i = Some d /\ ci_yp i = Some y
      /\ content (ad_v x) (fst (g_gpd g)) /\ content (ad_v m) (fst (g_mtrp g)) /\ content (bl_v s) (fst (g_sigp g)) /\ content (ab_v a) (fst (g_andp g))
      /\ content (bl_v (dh_block d)) (fst (g_dlwp g)) /\ content y (fst (g_yp g))
      /\ mt_NTR m = g_n g /\ ab_nr a = g_n g /\ dh_NR d = g_n g
  end.
Definition delayed_in (i : ceIn) (o : option delayedS) : Prop :=
  match o with
  | None => none (ci_dnu i) /\ none (ci_bdd i) /\ none (ci_dned i)
  | Some b => exists n x d, ci_dnu i = Some n /\ ci_bdd i = Some x /\ ci_dned i = Some d
      /\ content (nu_v n) (fst (b_dnu b)) /\ content (bd_v x) (fst (b_bdd b)) /\ content (bl_v (dh_block d)) (fst (b_dned b))
      /\ (exists o, nu_prompt n = NuTab o) /\ nu_total n = None /\ bd_NPCR x = b_n b /\ dh_NR d = b_n b
  end.
(** one list of six-tuples instead of six lists *)
Definition secondary_in (i : ceIn) (s : ceS) : Prop :=
  match s_particles s with
  | [] => none (ci_ptype i) /\ none (ci_hpd i) /\ none (ci_mtrh i) /\ none (ci_sigh i) /\ none (ci_andh i) /\ none (ci_dlwh i) /\ none (ci_yh i)
  | _ => exists p h m sg a d y, ci_ptype i = Some p /\ ci_hpd i = Some h /\ ci_mtrh i = Some m /\ ci_sigh i = Some sg /\ ci_andh i = Some a
      /\ ci_dlwh i = Some d /\ ci_yh i = Some y
      /\ content (ad_v p) (fst (s_ptype s)) /\ mt_NTR p = s_ntype s
      /\ len h = s_ntype s /\ len m = s_ntype s /\ len sg = s_ntype s /\ len a = s_ntype s /\ len d = s_ntype s /\ len y = s_ntype s
      /\ forall k q, nth_error (s_particles s) k = Some q -> exists h' m' sg' a' d' y',
           nth_error h k = Some h' /\ nth_error m k = Some m' /\ nth_error sg k = Some sg' /\ nth_error a k = Some a' /\ nth_error d k = Some d' /\ nth_error y k = Some y'
           /\ particle_in h' m' sg' a' d' y' q
  end.
Record ce_input bm (i : ceIn) (s : ceS) : Prop := {
  in_esz : content (ad_v (ci_esz i)) (fst (s_esz s)) /\ (exists en, esz_energies bm (ci_esz i) = Ok en /\ len en = s_nes s);
  in_nu : opt_in (ci_nu i) nu_v (s_nu s);
  in_mtr : content (ad_v (ci_mtr i)) (map dbl (s_mts s)) /\ mt_NTR (ci_mtr i) = s_ntr s /\ mt_lookup (ci_mtr i) (s_mts s);
  in_lqr : content (ad_v (ci_lqr i)) (fst (s_lqr s)) /\ mt_NTR (ci_lqr i) = s_ntr s;
  in_sig : content (bl_v (ci_sig i)) (bl_layout true (s_xs s)) /\ bl_n (ci_sig i) = s_ntr s /\ bl_locator (ci_sig i) = true;
  in_ang : content (ab_v (ci_ang i)) (fst (s_ang s)) /\ ab_nr (ci_ang i) = s_nr s;
  in_dlw : content (dl_v (ci_dlw i)) (fst (s_dlw s)) /\ dl_NR (ci_dlw i) = s_nr s /\ dl_frames (ci_dlw i) = s_frames s
           /\ firstn (Z.to_nat (s_nr s)) (ty_mults (dl_tyr (ci_dlw i))) = s_ms s;
  in_unr : opt_in (ci_unr i) un_v (s_unr s);
  in_delayed : delayed_in i (s_delayed s);
  in_photon : photon_in i (s_photon s);
  in_secondary : secondary_in i s }.

(** The numbers fit together and the words fit in a table *)
Record ce_sizes (s : ceS) : Prop := {
  sz_room : len (ce_words s) < max_words;
  sz_xs : len (s_xs s) = s_ntr s;
  sz_tyr : Forall2 ty_ok (s_frames s) (s_ms s) /\ len (s_ms s) = s_nr s;
  sz_nr : s_nr s <= s_ntr s;
  sz_nu : In 18 (s_mts s) -> s_nu s <> None;
  sz_delayed : forall b, s_delayed s = Some b -> 0 <= b_n b;
  sz_photon : forall g, s_photon s = Some g -> 0 <= g_n g;
  sz_particles : Forall (fun q => 0 <= q_n q /\ len (q_frames q) = q_n q /\ q_n q <= len (fst (q_sigh q)) /\ q_n q <= len (fst (q_andh q)) /\ q_n q <= len (fst (q_dlwh q))) (s_particles s) }.

(** * Lemmas *)

Definition set_nth (k : nat) (x : Z) (l : list Z) : list Z := firstn k l ++ x :: skipn (S k) l.
Lemma opt_step {A} (o : option A) (vw : A -> view) (w : list double) k (j : list Z) x :
  match o with Some a => content (vw a) w | None => w = [] end -> nth_error j k = Some 0 ->
  match o with Some a => st <- mark k 1 (j, x) ;; append (vw a) st | None => Ok (j, x) end = Ok (set_nth k (if given o then len x + 1 else 0) j, x ++ w).
Proof.
  intros H N. assert (S : forall y, upd k y j = Ok (set_nth k y j) /\ set_nth k 0 j = j).
  { intros y. destruct (nth_split_len _ _ _ N) as (l1 & l2 & -> & L). assert (length l1 = k) as <- by (unfold len in L; lia).
    rewrite upd_mid. unfold set_nth.
    rewrite firstn_app, Nat.sub_diag, firstn_all. cbn [firstn]. rewrite app_nil_r.
    rewrite skipn_app. rewrite skipn_all2 by lia. replace (Datatypes.S (length l1) - length l1)%nat with 1%nat by lia. cbn [app skipn]. auto. }
  destruct o as [a|].
  - unfold mark, append. cbn [snd fst]. rewrite (proj1 (S _)). cbn [bind fst snd]. rewrite (xss_all_content _ _ H). reflexivity.
  - subst w. rewrite app_nil_r. cbn [given]. rewrite (proj2 (S 0)). reflexivity.
Qed.

Lemma opt_in_step {A} (o : option A) (vw : A -> view) (c : option (claim A)) : opt_in o vw c ->
  match o with Some a => content (vw a) (words_or (fun c => c) c) | None => words_or (fun c => c) c = [] end /\ given o = given c.
Proof. destruct o, c; cbn; try tauto; auto. Qed.

Ltac conventional_step H := unfold mark at 1; cbn [fst snd upd bind]; unfold append at 1; rewrite (xss_all_content _ _ H); cbn [bind fst snd].

Lemma cons_eq {A} (a b : A) l r : a = b -> l = r -> a :: l = b :: r.
Proof. intros -> ->; reflexivity. Qed.

Ltac entry := first [reflexivity | rewrite ?len_app, ?len_nil; lia | match goal with |- context [if ?b then _ else _] => destruct b; [rewrite ?len_app, ?len_nil; lia|reflexivity] end].
Ltac finish_layout :=
  eexists; split; [apply f_equal, f_equal2; [reflexivity|rewrite <- !app_assoc; cbn [concat app words_or]; rewrite ?app_nil_r; reflexivity]|];
  intros f; cbn [upd bind firstn skipn app given or0 words_or nth_error] in *;
  repeat match goal with L : _ = len (_ ++ _) |- _ => rewrite ?len_app, ?len_nil in L end;
  split; [apply f_equal; repeat (apply cons_eq; [entry|]); reflexivity|]; split; [apply f_equal; repeat (apply cons_eq; [entry|]); reflexivity|apply f_equal; entry].

Lemma ce_conventional_ok bm i s t : ce_input bm i s -> content (ty_v t) (ty_layout (all_frames s) (all_ms s)) ->
  exists j, ce_conventional i t = Ok (j, concat (ce_pieces s)) /\ forall f,
    (j1 <- upd 20 f j ;; upd 21 (ce_END s) j1) =
      Ok (firstn 20 (ce_locators s f) ++ [f; ce_END s] ++ firstn 7 (skipn 22 (ce_locators s f)) ++ [0; 0; 0])
    /\ (j1 <- upd 21 (ce_END s) j ;; Ok j1) = Ok (firstn 20 (ce_locators s 0) ++ [0; ce_END s] ++ firstn 7 (skipn 22 (ce_locators s 0)) ++ [0; 0; 0])
    /\ nth_error j 6 = Some (ce_off s 5 + s_ntr s + 1).
Proof.
  intros [(I1 & _) I2 (I3 & N3 & _) (I4 & _) (I6 & _) (I7 & N7) (I8 & N8 & _) I9 I10 I12 _] It.
  unfold ce_conventional. rewrite N3, N7.
  unfold mark at 1. cbn [zeros repeat fst snd upd bind]. unfold append at 1. rewrite (xss_all_content _ _ I1). cbn [bind fst snd].
  destruct (opt_in_step _ _ _ I2) as [C2 G2]. rewrite (opt_step _ _ _ 1%nat _ _ C2) by reflexivity. cbn [bind]. rewrite G2.
  cbn [set_nth firstn skipn app].
  conventional_step I3. conventional_step I4. conventional_step It.
  unfold mark at 1; cbn [fst snd upd bind]. conventional_step I6.
  unfold mark at 1; cbn [fst snd upd bind]. conventional_step I7.
  unfold mark at 1; cbn [fst snd upd bind]. conventional_step I8.
  destruct (opt_in_step _ _ _ I9) as [C9 G9]. rewrite (opt_step _ _ _ 22%nat _ _ C9) by reflexivity. cbn [bind]. rewrite G9.
  cbn [set_nth firstn skipn app].
  assert (LX : forall k, ce_off s k = len (concat (firstn k (ce_pieces s)))) by reflexivity.
  pose proof (LX 1%nat) as L1. pose proof (LX 2%nat) as L2. pose proof (LX 3%nat) as L3. pose proof (LX 4%nat) as L4. pose proof (LX 5%nat) as L5. pose proof (LX 6%nat) as L6.
  pose proof (LX 7%nat) as L7. pose proof (LX 8%nat) as L8. pose proof (LX 9%nat) as L9. pose proof (LX 10%nat) as L10. pose proof (LX 11%nat) as L11. pose proof (LX 12%nat) as L12.
  pose proof (LX 13%nat) as L13. pose proof (LX 14%nat) as L14. pose proof (LX 15%nat) as L15. pose proof (LX 16%nat) as L16. pose proof (LX 17%nat) as L17.
  clear LX.
  unfold ce_locators. 
  remember (ce_off s 1) as e1. remember (ce_off s 2) as e2. remember (ce_off s 3) as e3. remember (ce_off s 4) as e4. remember (ce_off s 5) as e5. remember (ce_off s 6) as e6.
  remember (ce_off s 7) as e7. remember (ce_off s 8) as e8. remember (ce_off s 9) as e9. remember (ce_off s 10) as e10. remember (ce_off s 11) as e11. remember (ce_off s 12) as e12.
  remember (ce_off s 13) as e13. remember (ce_off s 14) as e14. remember (ce_off s 15) as e15. remember (ce_off s 16) as e16. remember (ce_off s 17) as e17.
  unfold ce_pieces in *. cbn [firstn concat] in L1, L2, L3, L4, L5, L6, L7, L8, L9, L10, L11, L12, L13, L14, L15, L16, L17.
  unfold delayed_in, photon_in, none in *.
  destruct (s_delayed s) as [b|].
  - destruct I10 as (n & x & d & E1 & E2 & E3 & D1 & D2 & D3 & _ & _ & D4 & D5). rewrite E1, E2, E3. cbn [or0 deref_opt bind given words_or]. rewrite D4.
    conventional_step D1. conventional_step D2.  unfold mark at 1; cbn [fst snd upd bind]. conventional_step D3.
    destruct (s_photon s) as [g|].
    + destruct I12 as (x' & m & sg & a & d' & y & F1 & F2 & F3 & F4 & F5 & F6 & P1 & P2 & P3 & P4 & P5 & P6 & Q1 & Q2 & Q3).
      rewrite F1, F2, F3, F4, F5, F6. cbn [or0 deref_opt bind given words_or]. rewrite Q1.
      conventional_step P1. conventional_step P2.  unfold mark at 1; cbn [fst snd upd bind]. conventional_step P3.
      unfold mark at 1; cbn [fst snd upd bind]. conventional_step P4. unfold mark at 1; cbn [fst snd upd bind]. conventional_step P5. conventional_step P6.
      finish_layout.
    + destruct I12 as (F1 & F2 & F3 & F4 & F5 & F6). rewrite F1, ?F2. cbn [or0 deref_opt bind given words_or] in *. finish_layout.
  - destruct I10 as (E1 & E2 & E3). rewrite E1, ?E2. cbn [or0 deref_opt bind given words_or] in *.
    destruct (s_photon s) as [g|].
    + destruct I12 as (x' & m & sg & a & d' & y & F1 & F2 & F3 & F4 & F5 & F6 & P1 & P2 & P3 & P4 & P5 & P6 & Q1 & Q2 & Q3).
      rewrite F1, F2, F3, F4, F5, F6. cbn [or0 deref_opt bind given words_or]. rewrite Q1.
      conventional_step P1. conventional_step P2.  unfold mark at 1; cbn [fst snd upd bind]. conventional_step P3.
      unfold mark at 1; cbn [fst snd upd bind]. conventional_step P4. unfold mark at 1; cbn [fst snd upd bind]. conventional_step P5. conventional_step P6.
      finish_layout.
    + destruct I12 as (F1 & F2 & F3 & F4 & F5 & F6). rewrite F1, ?F2. cbn [or0 deref_opt bind given words_or] in *. finish_layout.
Qed.
