(** The program with storage does what the program with values does. *)
From Coq Require Import ZArith Bool List Lia Arith.
From Verif Require Import Base Ownership OwnershipSpec.
Import ListNotations.
Open Scope Z_scope.

(** * Which buffer belongs to which variable *)
Definition slot : Type := nat * nat.
Definition seq (s t : slot) : bool := Nat.eqb (fst s) (fst t) && Nat.eqb (snd s) (snd t).
Definition owners := slot -> option (addr * list double).
Definition put (w : owners) (s : slot) (v : option (addr * list double)) : owners := fun t => if seq t s then v else w t.
Record inv (h : heap) (w : owners) : Prop := Inv {
  i_fresh : forall a, (next h <= a)%nat -> cells h a = None;
  i_has : forall s a l, w s = Some (a, l) -> cells h a = Some l;
  i_inj : forall s t a l l', w s = Some (a, l) -> w t = Some (a, l') -> s = t;
  i_all : forall a l, cells h a = Some l -> exists s, w s = Some (a, l) }.
Lemma seq_spec s t : reflect (s = t) (seq s t).
Proof.
  destruct s as [a b], t as [c d]. unfold seq. cbn. destruct (Nat.eqb_spec a c), (Nat.eqb_spec b d); constructor; congruence.
Qed.
Lemma inv_ext h w w' : (forall s, w s = w' s) -> inv h w -> inv h w'.
Proof.
  intros E [F H I A]. constructor; intros.
  - auto.
  - rewrite <- E in H0. eauto.
  - rewrite <- E in H0, H1. eauto.
  - destruct (A _ _ H0) as (s & Hs). exists s. now rewrite <- E.
Qed.
Lemma some_inj {A} (a b : A) : Some a = Some b -> a = b.
Proof. now inversion 1. Qed.
Lemma Ok_inj {A} (a b : A) : Ok a = Ok b -> a = b.
Proof. now inversion 1. Qed.
Lemma some_pair {A B} (a c : A) (b d : B) : Some (a, b) = Some (c, d) -> a = c /\ b = d.
Proof. now inversion 1. Qed.
Ltac sp E := let H1 := fresh in let H2 := fresh in destruct (some_pair _ _ _ _ E) as [H1 H2]; clear E; subst.
Ltac pt := unfold put in *; repeat match goal with |- context [seq ?a ?b] => destruct (seq_spec a b); subst | H : context [seq ?a ?b] |- _ => destruct (seq_spec a b); subst end.
Lemma inv_alloc h w s l : inv h w -> w s = None -> inv (alloc h l) (put w s (Some (next h, l))).
Proof.
  intros [F H I A] N. unfold alloc. constructor; cbn.
  - intros a L. unfold upd. destruct (Nat.eqb_spec a (next h)); [lia|]. apply F. lia.
  - intros t a l' E. pt.
    + sp E. unfold upd. now rewrite Nat.eqb_refl.
    + unfold upd. destruct (Nat.eqb_spec a (next h)); [|eauto]. subst. pose proof (H _ _ _ E). rewrite F in H0 by lia. discriminate.
  - intros t u a l1 l2 E1 E2. pt; try congruence; [| |eauto].
    + sp E2. pose proof (H _ _ _ E1) as X. rewrite F in X by lia. discriminate.
    + sp E1. pose proof (H _ _ _ E2) as X. rewrite F in X by lia. discriminate.
  - intros a l'. unfold upd. destruct (Nat.eqb_spec a (next h)) as [->|]; intros E.
    + injection E as <-. exists s. pt; congruence.
    + destruct (A _ _ E) as (t & Ht). exists t. pt; congruence.
Qed.
Lemma inv_free h w s a l : inv h w -> w s = Some (a, l) -> exists h', free h a = Ok h' /\ inv h' (put w s None).
Proof.
  intros [F H I A] E. unfold free. rewrite (H _ _ _ E). eexists. split; [reflexivity|]. constructor; cbn.
  - intros b L. unfold upd. destruct (Nat.eqb b a); auto.
  - intros t b l' E'. pt; [discriminate|]. unfold upd. destruct (Nat.eqb_spec b a); [|eauto]. subst. destruct n. eauto.
  - intros t u b l1 l2 E1 E2. pt; try discriminate. eauto.
  - intros b l'. unfold upd. destruct (Nat.eqb_spec b a); [discriminate|]. intros E'.
    destruct (A _ _ E') as (t & Ht). exists t. pt; congruence.
Qed.
Lemma inv_rename h w s t : inv h w -> w t = None -> inv h (put (put w s None) t (w s)).
Proof.
  intros [F H I A] N. constructor; auto.
  - intros u a l E. pt; try discriminate; eauto.
  - intros u v a l l' E1 E2. pt; try discriminate; try congruence; eauto.
    + destruct n0. eauto. 
    + destruct n0. eauto.
  - intros a l E. destruct (A _ _ E) as (u & Hu). destruct (seq_spec u s) as [->|Nu].
    + exists t. pt; congruence.
    + exists u. pt; congruence.
Qed.

(** * Blocks and values *)
Section S.
Context {C : class} (settle : settled C).
Notation own := (option (addr * list double)).
(** [c] owns the buffer [w] and has the value [v] *)
Definition owns (w : own) (c : core C) (v : part C) (mt : option (T C)) : Prop :=
  let '(p, d, t) := v in exists a, w = Some (a, d) /\ c = Core p (Some a) a 0 (len d) a t /\ gen C p (View d 0 (len d)) mt = Ok t.
Definition moving (w : own) (c : core C) (pv : option (part C)) (mt : option (T C)) : Prop :=
  match pv with
  | Some (p, d, t) => exists a src, w = Some (a, d) /\ c = Core p (Some a) a 0 (len d) src t /\ gen C p (View d 0 (len d)) mt = Ok t
  | None => c_own c = None /\ w = None
  end.
Definition main (w : own) (c : core C) (pv : option (part C)) (mt : option (T C)) : Prop :=
  match pv with Some v => owns w c v mt | None => c_own c = None /\ w = None end.
Definition mem (w : own) (m : option (core C)) (vm : option (part C)) : Prop :=
  match vm, m with Some v, Some m => owns w m v None | None, None => w = None | _, _ => False end.
Definition mown (m : option (core C)) : option addr := match m with Some m => c_own m | None => None end.
Definition kind (k : holds C) (pv vm : option (part C)) : Prop :=
  match k with Owns (v, vm') => pv = Some v /\ vm = vm' | Views v => pv = None /\ vm = snd v | MovedFrom => False end.
Definition alive (w0 w1 : own) (o : obj C) (k : holds C) : Prop :=
  exists pv vm, kind k pv vm /\ main w0 (o_core o) pv (option_map snd vm) /\ mem w1 (o_member o) vm /\
    on_construct C (c_par (o_core o)) = Ok (c_par (o_core o)) /\ on_assign C (c_par (o_core o)) = Ok (c_par (o_core o)).
Definition held (w0 w1 : own) (o : obj C) (k : holds C) : Prop :=
  option_map fst w0 = c_own (o_core o) /\ option_map fst w1 = mown (o_member o) /\ (k = MovedFrom \/ alive w0 w1 o k).

Lemma main_own w c pv mt : main w c pv mt -> option_map fst w = c_own c.
Proof. destruct pv as [[[p d] t]|]; cbn; [intros (a & -> & -> & _)|intros [-> ->]]; reflexivity. Qed.
Lemma mem_own w m vm : mem w m vm -> option_map fst w = mown m.
Proof. destruct vm as [v|], m as [m|]; cbn; try easy; [|now intros ->]. intros H. apply (main_own _ _ (Some v) None H). Qed.
Lemma mem_t w m vm : mem w m vm -> option_map c_t m = option_map snd vm.
Proof. destruct vm as [[[p d] t]|], m as [m|]; cbn; try easy. now intros (a & _ & -> & _). Qed.
Lemma alive_held w0 w1 o k : alive w0 w1 o k -> held w0 w1 o k.
Proof. intros A. pose proof A as (pv & vm & _ & M & N & _). split; [now apply main_own in M|]. split; [now apply mem_own in N|]. now right. Qed.

Lemma put_none (w : owners) s : w s = None -> forall t, w t = put w s None t.
Proof. intros H t. pt; auto. Qed.
Lemma base_copy_ok h ow s t c pv mt : inv h ow -> main (ow s) c pv mt -> ow t = None ->
  exists h' c' w', base_copy h c = Ok (h', c') /\ inv h' (put ow t w') /\ moving w' c' pv mt /\ c_par c' = c_par c.
Proof.
  intros I M N. destruct pv as [[[p d] tt]|]; cbn in M.
  - destruct M as (a & Ew & -> & G). unfold base_copy, load. cbn. rewrite (i_has _ _ I _ _ _ Ew). cbn.
    do 3 eexists. split; [reflexivity|]. split; [apply inv_alloc; assumption|]. split; [|reflexivity]. cbn. do 2 eexists. eauto.
  - destruct M as [E Ew]. unfold base_copy. rewrite E. exists h, c, None. split; [reflexivity|].
    split; [apply (inv_ext _ ow); [now apply put_none|assumption]|]. split; [split; auto|reflexivity].
Qed.
Lemma base_move_ok h ow s t c pv mt : inv h ow -> main (ow s) c pv mt -> ow t = None -> s <> t ->
  exists h' c' r w' wl, base_move h c = Ok (h', c', r) /\ inv h' (put (put ow t w') s wl) /\ moving w' c' pv mt /\
    c_par c' = c_par c /\ option_map fst wl = c_own r.
Proof.
  intros I M N D. destruct pv as [[[p d] tt]|]; cbn in M.
  - destruct M as (a & Ew & -> & G). unfold base_move, load. cbn. rewrite (i_has _ _ I _ _ _ Ew). cbn.
    exists (alloc h []), (Core p (Some a) a 0 (len d) a tt), (Core p (Some (next h)) a 0 (len d) a tt), (Some (a, d)), (Some (next h, [])).
    split; [reflexivity|]. split; [|split; [do 2 eexists; eauto|split; reflexivity]].
    apply (inv_ext _ (put (put (put ow s None) t (ow s)) s (Some (next h, [])))).
    { intros u. pt; try congruence. }
    apply inv_alloc; [now apply inv_rename|]. pt; congruence.
  - destruct M as [E Ew]. unfold base_move. rewrite E. exists h, c, c, None, None. split; [reflexivity|].
    split; [|split; [split; auto|split; [reflexivity|now rewrite E]]].
    apply (inv_ext _ ow); [|assumption]. intros u. pt; congruence.
Qed.
Lemma regenerate_ok h ow s c pv mt m : inv h ow -> moving (ow s) c pv mt -> option_map c_t m = mt ->
  exists c', regenerate h c m = Ok c' /\ main (ow s) c' pv mt /\ c_par c' = c_par c.
Proof.
  intros I M E. destruct pv as [[[p d] tt]|]; cbn in M.
  - destruct M as (a & src & Ew & -> & G). unfold regenerate, generate, load. cbn. rewrite (i_has _ _ I _ _ _ Ew). cbn. rewrite E, G. cbn.
    eexists. split; [reflexivity|]. split; [|reflexivity]. cbn. eauto.
  - destruct M as [Ec Ew]. unfold regenerate. rewrite Ec. exists c. split; [reflexivity|]. split; [split; auto|reflexivity].
Qed.
Lemma member_copy_ok h ow s t m vm : inv h ow -> mem (ow s) m vm -> ow t = None ->
  exists h' m' w', member_copy h m = Ok (h', m') /\ inv h' (put ow t w') /\ mem w' m' vm.
Proof.
  intros I M N. destruct vm as [v|], m as [m|]; cbn in M; try easy.
  - destruct (base_copy_ok h ow s t m (Some v) None I M N) as (h' & c' & w' & E & I' & M' & _). cbn. rewrite E. cbn.
    assert (M2 : moving (put ow t w' t) c' (Some v) None) by (pt; [assumption|congruence]).
    destruct (regenerate_ok h' (put ow t w') t c' (Some v) None None I' M2 eq_refl) as (c2 & E2 & M3 & _). rewrite E2. cbn.
    do 3 eexists. split; [reflexivity|]. split; [eassumption|]. cbn. clear -M3. cbn in M3. pt; [assumption|congruence].
  - exists h, None, None. split; [reflexivity|]. split; [|reflexivity]. apply (inv_ext _ ow); [now apply put_none|assumption].
Qed.
Lemma member_move_ok h ow s t m vm : inv h ow -> mem (ow s) m vm -> ow t = None -> s <> t ->
  exists h' m' r w' wl, member_move h m = Ok (h', m', r) /\ inv h' (put (put ow t w') s wl) /\ mem w' m' vm /\ option_map fst wl = mown r.
Proof.
  intros I M N D. destruct vm as [v|], m as [m|]; cbn in M; try easy.
  - destruct (base_move_ok h ow s t m (Some v) None I M N D) as (h' & c' & r & w' & wl & E & I' & M' & _ & Er). cbn. rewrite E. cbn.
    assert (M2 : moving (put (put ow t w') s wl t) c' (Some v) None) by (pt; congruence).
    destruct (regenerate_ok h' _ t c' (Some v) None None I' M2 eq_refl) as (c2 & E2 & M3 & _). rewrite E2. cbn.
    do 5 eexists. split; [reflexivity|]. split; [eassumption|]. split; [|assumption]. cbn. clear -M3 D. cbn in M3. pt; congruence.
  - exists h, None, None, None, None. split; [reflexivity|]. split; [|split; reflexivity]. apply (inv_ext _ ow); [|assumption]. intros u. pt; congruence.
Qed.
Lemma set_par_same (c : core C) : set_par (c_par c) c = c.
Proof. now destruct c. Qed.
Lemma free_opt_ok h ow s o : inv h ow -> option_map fst (ow s) = o -> exists h', free_opt h o = Ok h' /\ inv h' (put ow s None).
Proof.
  intros I <-. destruct (ow s) as [[a l]|] eqn:E; cbn.
  - now apply (inv_free h ow s a l).
  - exists h. split; [reflexivity|]. apply (inv_ext _ ow); [now apply put_none|assumption].
Qed.
Lemma release_ok h ow s0 s1 o : inv h ow -> s0 <> s1 -> option_map fst (ow s0) = c_own (o_core o) -> option_map fst (ow s1) = mown (o_member o) ->
  exists h', release h o = Ok h' /\ inv h' (put (put ow s0 None) s1 None).
Proof.
  intros I D E0 E1. unfold release. destruct (free_opt_ok h ow s0 _ I E0) as (h1 & F & I1). rewrite F. cbn.
  assert (E : option_map fst (put ow s0 None s1) = mown (o_member o)) by (pt; congruence).
  destruct (free_opt_ok h1 _ s1 _ I1 E) as (h2 & F2 & I2). exists h2. split; [|assumption].
  destruct (o_member o); cbn in *; assumption.
Qed.

Lemma put_same (w : owners) s v : put w s v s = v.
Proof. pt; congruence. Qed.
Lemma put_other (w : owners) s v t : t <> s -> put w s v t = w t.
Proof. intros. pt; congruence. Qed.
Ltac ps := repeat first [rewrite put_same | rewrite put_other by congruence]; try assumption; try reflexivity.

Lemma obj_copy_ok h ow s0 s1 t0 t1 o k : inv h ow -> alive (ow s0) (ow s1) o k -> ow t0 = None -> ow t1 = None ->
  t0 <> t1 -> s1 <> t0 ->
  exists h' o' w0 w1, obj_copy h o = Ok (h', o') /\ inv h' (put (put ow t0 w0) t1 w1) /\ alive w0 w1 o' k.
Proof.
  intros I (pv & vm & K & M & N & P1 & P2) F0 F1 D D'. unfold obj_copy.
  destruct (base_copy_ok h ow s0 t0 _ _ _ I M F0) as (h1 & c1 & w0 & E & I1 & M1 & Ep). rewrite E. cbn.
  destruct (member_copy_ok h1 (put ow t0 w0) s1 t1 (o_member o) vm I1) as (h2 & m2 & w1 & E2 & I2 & N2); ps.
  rewrite E2. cbn. rewrite Ep, P1. cbn. rewrite <- Ep, set_par_same.
  destruct (regenerate_ok h2 _ t0 c1 pv (option_map snd vm) m2 I2) as (c3 & E3 & M3 & Ep3); ps; [eapply mem_t, N2|].
  rewrite E3. cbn. rewrite put_other, put_same in M3 by congruence.
  do 4 eexists. split; [reflexivity|]. split; [eassumption|]. exists pv, vm. cbn. rewrite Ep3, Ep. now repeat split.
Qed.
Lemma obj_move_ok h ow s0 s1 t0 t1 o k : inv h ow -> alive (ow s0) (ow s1) o k -> ow t0 = None -> ow t1 = None ->
  t0 <> t1 -> s0 <> s1 -> s0 <> t0 -> s0 <> t1 -> s1 <> t0 -> s1 <> t1 ->
  exists h' o' r w0 w1 l0 l1, obj_move h o = Ok (h', o', r) /\ inv h' (put (put (put (put ow t0 w0) s0 l0) t1 w1) s1 l1) /\
    alive w0 w1 o' k /\ held l0 l1 r MovedFrom.
Proof.
  intros I (pv & vm & K & M & N & P1 & P2) F0 F1 D1 D2 D3 D4 D5 D6. unfold obj_move.
  assert (X : exists h1 c1 r1 w0 l0, (if move_copies C (c_par (o_core o)) then r <- base_copy h (o_core o) ;; Ok (r, o_core o) else base_move h (o_core o)) = Ok (h1, c1, r1) /\
    inv h1 (put (put ow t0 w0) s0 l0) /\ moving w0 c1 pv (option_map snd vm) /\ c_par c1 = c_par (o_core o) /\ option_map fst l0 = c_own r1).
  { destruct (move_copies C _).
    - destruct (base_copy_ok h ow s0 t0 _ _ _ I M F0) as (h1 & c1 & w0 & E & I1 & M1 & Ep). rewrite E. cbn.
      exists h1, c1, (o_core o), w0, (ow s0). split; [reflexivity|]. split; [|split; [assumption|split; [assumption|eapply main_own, M]]].
      apply (inv_ext _ (put ow t0 w0)); [|assumption]. intros u. pt; congruence.
    - destruct (base_move_ok h ow s0 t0 _ _ _ I M F0 D3) as (h1 & c1 & r1 & w0 & l0 & Y). exists h1, c1, r1, w0, l0. exact Y. }
  destruct X as (h1 & c1 & r1 & w0 & l0 & E & I1 & M1 & Ep & El). rewrite E. cbn.
  destruct (member_move_ok h1 _ s1 t1 (o_member o) vm I1) as (h2 & m2 & r2 & w1 & l1 & E2 & I2 & N2 & El2); ps.
  rewrite E2. cbn. rewrite Ep, P1. cbn. rewrite <- Ep, set_par_same.
  destruct (regenerate_ok h2 _ t0 c1 pv (option_map snd vm) m2 I2) as (c3 & E3 & M3 & Ep3); ps; [eapply mem_t, N2|].
  rewrite E3. cbn. repeat first [rewrite put_same in M3 | rewrite put_other in M3 by congruence].
  do 7 eexists. split; [reflexivity|]. split; [eassumption|]. split; [|split; [eassumption|split; [eassumption|now left]]].
  exists pv, vm. cbn. rewrite Ep3, Ep. now repeat split.
Qed.
Lemma obj_assign_ok h ow s0 s1 t0 t1 d0 d1 o k dst : inv h ow -> alive (ow s0) (ow s1) o k -> ow t0 = None -> ow t1 = None ->
  option_map fst (ow d0) = c_own (o_core dst) -> option_map fst (ow d1) = mown (o_member dst) ->
  NoDup [s0; s1; t0; t1; d0; d1] ->
  exists h' o' w0 w1, obj_assign h dst o = Ok (h', o') /\ inv h' (put (put (put (put ow t0 w0) t1 w1) d0 None) d1 None) /\ alive w0 w1 o' k.
Proof.
  intros I (pv & vm & K & M & N & P1 & P2) F0 F1 H0 H1 ND. unfold obj_assign.
  repeat match goal with H : NoDup (_ :: _) |- _ => inversion H; clear H; subst end. cbn [In] in *.
  destruct (base_copy_ok h ow s0 t0 _ _ _ I M F0) as (h1 & c1 & w0 & E & I1 & M1 & Ep). rewrite E. cbn.
  destruct (member_copy_ok h1 (put ow t0 w0) s1 t1 (o_member o) vm I1) as (h2 & m2 & w1 & E2 & I2 & N2);
    [rewrite put_other by (intuition congruence); assumption|rewrite put_other by (intuition congruence); assumption|].
  rewrite E2. cbn.
  destruct (release_ok h2 _ d0 d1 dst I2) as (h3 & E3 & I3); [intuition|rewrite !put_other by (intuition congruence); assumption ..|].
  rewrite E3. cbn. rewrite Ep, P2. cbn. rewrite <- Ep, set_par_same.
  destruct (regenerate_ok h3 _ t0 c1 pv (option_map snd vm) m2 I3) as (c3 & E4 & M3 & Ep3);
    [rewrite !put_other, put_same by (intuition congruence); assumption|eapply mem_t, N2|].
  rewrite E4. cbn. rewrite !put_other, put_same in M3 by (intuition congruence).
  do 4 eexists. split; [reflexivity|]. split; [eassumption|]. exists pv, vm. cbn. rewrite Ep3, Ep. now repeat split.
Qed.
Lemma obj_move_assign_ok h ow s0 s1 t0 t1 d0 d1 o k dst : inv h ow -> alive (ow s0) (ow s1) o k -> ow t0 = None -> ow t1 = None ->
  option_map fst (ow d0) = c_own (o_core dst) -> option_map fst (ow d1) = mown (o_member dst) ->
  NoDup [s0; s1; t0; t1; d0; d1] ->
  exists h' o' r w0 w1 l0 l1, obj_move_assign h dst o = Ok (h', o', r) /\
    inv h' (put (put (put (put (put (put ow t0 w0) s0 l0) t1 w1) s1 l1) d0 None) d1 None) /\ alive w0 w1 o' k /\ held l0 l1 r MovedFrom.
Proof.
  intros I (pv & vm & K & M & N & P1 & P2) F0 F1 H0 H1 ND. unfold obj_move_assign.
  repeat match goal with H : NoDup (_ :: _) |- _ => inversion H; clear H; subst end. cbn [In] in *.
  destruct (base_move_ok h ow s0 t0 _ _ _ I M F0) as (h1 & c1 & r1 & w0 & l0 & E & I1 & M1 & Ep & El); [intuition congruence|]. rewrite E. cbn.
  destruct (member_move_ok h1 _ s1 t1 (o_member o) vm I1) as (h2 & m2 & r2 & w1 & l1 & E2 & I2 & N2 & El2);
    [rewrite !put_other by (intuition congruence); assumption ..|intuition congruence|].
  rewrite E2. cbn.
  destruct (release_ok h2 _ d0 d1 dst I2) as (h3 & E3 & I3); [intuition|rewrite !put_other by (intuition congruence); assumption ..|].
  rewrite E3. cbn. rewrite Ep, P2. cbn. rewrite <- Ep, set_par_same.
  destruct (regenerate_ok h3 _ t0 c1 pv (option_map snd vm) m2 I3) as (c3 & E4 & M3 & Ep3);
    [rewrite !put_other, put_same by (intuition congruence); assumption|eapply mem_t, N2|].
  rewrite E4. cbn. rewrite !put_other, put_same in M3 by (intuition congruence).
  do 7 eexists. split; [reflexivity|]. split; [eassumption|]. split; [|split; [eassumption|split; [eassumption|now left]]].
  exists pv, vm. cbn. rewrite Ep3, Ep. now repeat split.
Qed.

(** * Programs *)
Definition holding (w0 w1 : own) (o : option (obj C)) (k : option (holds C)) : Prop :=
  match k, o with None, None => w0 = None /\ w1 = None | Some k, Some o => held w0 w1 o k | _, _ => False end.
Definition related (s : state C) (a : vars C) : Prop :=
  exists ow, inv (s_heap s) ow /\ (forall x k, (2 <= k)%nat -> ow (x, k) = None) /\
    forall x, holding (ow (x, 0%nat)) (ow (x, 1%nat)) (s_env s x) (a x).

Lemma start_related : related start no_vars.
Proof.
  exists (fun _ => None). split; [|split]; [|reflexivity|now split].
  constructor; cbn; try easy.
Qed.
Lemma holding_live w0 w1 o k : holding w0 w1 o (Some k) -> exists o', o = Some o' /\ held w0 w1 o' k.
Proof. destruct o as [o|]; cbn; [|easy]. eauto. Qed.
Lemma held_alive w0 w1 o k : k <> MovedFrom -> held w0 w1 o k -> alive w0 w1 o k.
Proof. intros N (_ & _ & [|]); [congruence|assumption]. Qed.
Lemma holding_none w0 w1 o : holding w0 w1 o None -> o = None /\ w0 = None /\ w1 = None.
Proof. destruct o as [o|]; cbn; easy. Qed.
Lemma upd_eq {A} (f : nat -> A) x v y : upd f x v y = if Nat.eqb y x then v else f y.
Proof. reflexivity. Qed.

(** the final owners after the new object has been put in place *)
Lemma slots2 (x k : nat) (y j : nat) : (x, k) <> (y, j) <-> x <> y \/ k <> j.
Proof.
  split; [|intros [|]; congruence]. intros H. destruct (Nat.eq_dec x y), (Nat.eq_dec k j); subst; auto; congruence.
Qed.

Lemma place h ow (w0 w1 : own) x : inv h ow -> ow (x, 0%nat) = None -> ow (x, 1%nat) = None ->
  ow (x, 2%nat) = w0 -> ow (x, 3%nat) = w1 ->
  inv h (put (put (put (put ow (x, 2%nat) None) (x, 3%nat) None) (x, 0%nat) w0) (x, 1%nat) w1).
Proof.
  intros I E0 E1 E2 E3.
  assert (I2 := inv_rename h ow (x, 2%nat) (x, 0%nat) I E0).
  assert (I3 := inv_rename h _ (x, 3%nat) (x, 1%nat) I2).
  eapply inv_ext; [|apply I3]. 2:{ pt; try congruence. }
  intros t. pt; try congruence.
Qed.

Notation "x ! k" := (x, k%nat) (at level 9, k at level 8, only parsing).
Ltac sl := apply slots2; first [left; congruence | right; lia].
Ltac po := repeat first [rewrite put_same | rewrite put_other by sl].

Lemma related_put s a ow h' x w0 w1 o k : inv h' (put (put ow x!0 w0) x!1 w1) -> (forall x k, (2 <= k)%nat -> ow (x, k) = None) ->
  (forall x, holding (ow x!0) (ow x!1) (s_env s x) (a x)) -> holding w0 w1 o k ->
  related (State h' (upd (s_env s) x o)) (upd a x k).
Proof.
  intros I T H K. eexists. split; [apply I|]. split.
  - intros y j L. rewrite !put_other by sl. auto.
  - intros y. cbn. rewrite !upd_eq. destruct (Nat.eqb_spec y x) as [->|]; po; auto.
Qed.
Lemma related_put2 s a ow h' x w0 w1 o k y l0 l1 o' k' : x <> y -> inv h' (put (put (put (put ow x!0 w0) y!0 l0) x!1 w1) y!1 l1) ->
  (forall x k, (2 <= k)%nat -> ow (x, k) = None) ->
  (forall x, holding (ow x!0) (ow x!1) (s_env s x) (a x)) -> holding w0 w1 o k -> holding l0 l1 o' k' ->
  related (State h' (upd (upd (s_env s) y o') x o)) (upd (upd a y k') x k).
Proof.
  intros D I T H K K'. eexists. split; [apply I|]. split.
  - intros z j L. rewrite !put_other by sl. auto.
  - intros z. cbn. rewrite !upd_eq. destruct (Nat.eqb_spec z x) as [->|]; po; auto. destruct (Nat.eqb_spec z y) as [->|]; po; auto.
Qed.

Lemma new_ok s a x p d m a' : related s a -> vstep a (New x p d m) = Some a' -> exists s', step s (New x p d m) = Ok s' /\ related s' a'.
Proof.
  intros (ow & I & T & H). cbn. unfold unused. pose proof (H x) as Hx.
  destruct (a x) as [k|]; [discriminate|]. destruct (holding_none _ _ _ Hx) as (-> & E0 & E1). cbn. unfold built, obj_new.
  assert (X : match (m <- match m with None => Ok None | Some (mp, md) => t <- gen C mp (View md 0 (len md)) None ;; Ok (Some (mp, md, t)) end ;; Ok m) with
    | Ok vm => exists h1 m' w1, match m with None => Ok (s_heap s, None) | Some (mp, md) => t <- gen C mp (View md 0 (len md)) None ;;
           Ok (alloc (s_heap s) md, Some (Core mp (Some (next (s_heap s))) (next (s_heap s)) 0 (len md) (next (s_heap s)) t)) end = Ok (h1, m') /\
         inv h1 (put ow x!1 w1) /\ mem w1 m' vm
    | Throw _ => exists e, match m with None => Ok (s_heap s, None) | Some (mp, md) => t <- gen C mp (View md 0 (len md)) None ;;
           Ok (alloc (s_heap s) md, Some (Core mp (Some (next (s_heap s))) (next (s_heap s)) 0 (len md) (next (s_heap s)) t)) end = Throw e
    | UB => True end).
  { destruct m as [[mp md]|]; cbn.
    - destruct (gen C mp _ None) as [t|e|] eqn:G; cbn; eauto.
      do 3 eexists. split; [reflexivity|]. split; [apply inv_alloc; assumption|]. cbn. eauto.
    - exists (s_heap s), None, None. split; [reflexivity|]. split; [|reflexivity]. apply (inv_ext _ ow); [now apply put_none|assumption]. }
  destruct (match m with None => Ok None | Some (mp, md) => _ end) as [vm|e|]; cbn in X |- *; [|destruct X as (e' & ->); cbn|discriminate].
  2:{ intros E. apply some_inj in E as <-. exists s. split; [reflexivity|]. exists ow. auto. }
  destruct X as (h1 & m' & w1 & -> & I1 & M). cbn.
  destruct (on_construct C p) as [q|e|] eqn:Q; cbn; [| |discriminate].
  2:{ intros E. apply some_inj in E as <-. exists s. split; [reflexivity|]. exists ow. auto. }
  rewrite (mem_t _ _ _ M).
  destruct (gen C q _ _) as [t|e|] eqn:G; cbn; [| |discriminate].
  2:{ intros E. apply some_inj in E as <-. exists s. split; [reflexivity|]. exists ow. auto. }
  intros E. apply some_inj in E as <-. eexists. split; [reflexivity|].
  apply (related_put s a ow _ x (Some (next h1, d)) w1).
  - eapply inv_ext; [|apply (inv_alloc h1 _ x!0 d I1)].
    + intros u. pt; congruence.
    + po. assumption.
  - assumption.
  - assumption.
  - cbn. apply alive_held. destruct (settle _ _ Q). exists (Some (q, d, t)), vm. cbn. repeat split; auto. eauto.
Qed.
Definition shape (s' : state C) (a a' : vars C) x y b e : Prop :=
  forall q w t vm, a x = None -> a' x = Some (Views (q, w, t, vm)) -> exists ox oy ad vp d vt vm', s_env s' x = Some ox /\ s_env s' y = Some oy /\ x <> y /\
    o_core ox = Core q None ad b e ad t /\ c_own (o_core oy) = Some ad /\ a y = Some (Owns (vp, d, vt, vm')) /\ read_range d b e = Ok w.
Lemma view_ok' s a x y p b e z a' : related s a -> vstep a (ViewOn x y p b e z) = Some a' -> exists s', step s (ViewOn x y p b e z) = Ok s' /\ related s' a' /\
  shape s' a a' x y b e.
Proof.
  intros R. pose proof R as (ow & I & T & H). cbn. unfold unused, var. pose proof (H x) as Hx. pose proof (H y) as Hy.
  destruct (a x) as [k|] eqn:Ax; [discriminate|]. destruct (holding_none _ _ _ Hx) as (-> & E0 & E1). cbn.
  destruct (a y) as [[[[[vp d] vt] vm]|v|]|] eqn:Ay; try discriminate. destruct (holding_live _ _ _ _ Hy) as (oy & Eoy & Ky). rewrite Eoy. cbn.
  apply held_alive in Ky; [|discriminate]. destruct Ky as (pv & vm' & (-> & ->) & (ad & W & Ec & _) & _).
  assert (X : match match z with None => Some None | Some z => match a z with Some (Owns (v, None)) => Some (Some v) | _ => None end end with
    | None => True
    | Some vm => exists m, match z with Some z => o <- match s_env s z with Some o => Ok o | None => UB end ;; Ok (Some (o_core o)) | None => Ok None end = Ok m /\
        exists h1 m' w1, member_copy (s_heap s) m = Ok (h1, m') /\ inv h1 (put ow x!1 w1) /\ mem w1 m' vm
    end).
  { destruct z as [z|].
    - pose proof (H z) as Hz. destruct (a z) as [[[v [|]]| |]|]; auto. destruct (holding_live _ _ _ _ Hz) as (oz & -> & Kz). cbn.
      eexists. split; [reflexivity|]. apply held_alive in Kz; [|discriminate]. destruct Kz as (pv & vm' & (-> & ->) & M & _).
      destruct (member_copy_ok (s_heap s) ow z!0 x!1 (Some (o_core oz)) (Some v) I M E1) as (h1 & m' & w1 & E & I1 & M1).
      exists h1, m', w1. auto.
    - exists None. split; [reflexivity|]. exists (s_heap s), None, None. split; [reflexivity|]. split; [|reflexivity].
      apply (inv_ext _ ow); [now apply put_none|assumption]. }
  destruct (match z with None => Some None | Some z => _ end) as [vm'|]; [|discriminate].
  destruct X as (m & -> & h1 & m' & w1 & E & I1 & M). cbn. unfold obj_view. rewrite E. cbn.
  assert (RR : forall e', read_range d b e <> Throw e') by (unfold read_range; intros e'; destruct (_ && _); discriminate).
  destruct (read_range d b e) as [w|x1|] eqn:Er; cbn; [|now destruct (RR x1)|discriminate].
  assert (Stop : Some a = Some a' -> exists s', Ok s = Ok s' /\ related s' a' /\ shape s' a a' x y b e).
  { intros Z. apply some_inj in Z as <-. exists s. split; [reflexivity|]. split; [exact R|]. unfold shape. congruence. }
  destruct (on_construct C p) as [q|x1|] eqn:Q; cbn; [|exact Stop|discriminate].
  rewrite Ec. cbn. unfold load. rewrite (i_has _ _ I1 y!0 ad d) by (rewrite put_other by sl; assumption). cbn.
  rewrite (mem_t _ _ _ M). destruct (gen C q _ _) as [t|x1|] eqn:G; cbn; [|exact Stop|discriminate].
  intros Z. apply some_inj in Z as <-. eexists. split; [reflexivity|]. split.
  - apply (related_put s a ow _ x None w1); [|assumption|assumption|].
    + eapply inv_ext; [|apply I1]. intros u. pt; congruence.
    + cbn. apply alive_held. destruct (settle _ _ Q). exists None, vm'. cbn. repeat split; auto.
  - intros q' w' t' vm2 _ Z. cbn [s_env]. rewrite upd_eq, Nat.eqb_refl in Z. apply some_inj in Z. inversion Z; subst. clear Z.
    assert (D : x <> y) by congruence.
    do 7 eexists. rewrite !upd_eq, Nat.eqb_refl. destruct (Nat.eqb_spec y x); [congruence|]. split; [reflexivity|]. split; [eassumption|].
    split; [assumption|]. split; [reflexivity|]. split; [rewrite Ec; reflexivity|]. split; [eassumption|assumption].
Qed.
Lemma view_ok s a x y p b e z a' : related s a -> vstep a (ViewOn x y p b e z) = Some a' -> exists s', step s (ViewOn x y p b e z) = Ok s' /\ related s' a'.
Proof. intros R V. destruct (view_ok' s a x y p b e z a' R V) as (s' & E & R' & _). eauto. Qed.
Lemma copy_ok s a x y a' : related s a -> vstep a (Copy x y) = Some a' -> exists s', step s (Copy x y) = Ok s' /\ related s' a'.
Proof.
  intros (ow & I & T & H). cbn. unfold unused, var. pose proof (H x) as Hx. pose proof (H y) as Hy.
  destruct (a x) as [k|]; [discriminate|]. destruct (holding_none _ _ _ Hx) as (-> & E0 & E1). cbn.
  destruct (a y) as [k|] eqn:Ay; [|discriminate]. destruct (holding_live _ _ _ _ Hy) as (oy & -> & Ky). cbn.
  intros E. assert (N : k <> MovedFrom /\ a' = upd a x (Some k)) by (destruct k; try discriminate; apply some_inj in E; split; [discriminate|congruence| discriminate|congruence]).
  destruct N as [N ->]. apply held_alive in Ky; [|assumption].
  destruct (obj_copy_ok (s_heap s) ow y!0 y!1 x!0 x!1 oy k I Ky E0 E1) as (h' & o' & w0 & w1 & Eo & I' & A); [sl|sl|].
  rewrite Eo. cbn. eexists. split; [reflexivity|]. apply (related_put s a ow _ x w0 w1); auto. apply alive_held, A.
Qed.
Lemma move_ok s a x y a' : related s a -> vstep a (Move x y) = Some a' -> exists s', step s (Move x y) = Ok s' /\ related s' a'.
Proof.
  intros (ow & I & T & H). cbn. unfold unused, var. pose proof (H x) as Hx. pose proof (H y) as Hy.
  destruct (a x) as [k|] eqn:Ax; [discriminate|]. destruct (holding_none _ _ _ Hx) as (-> & E0 & E1). cbn.
  destruct (a y) as [k|] eqn:Ay; [|discriminate]. destruct (holding_live _ _ _ _ Hy) as (oy & -> & Ky). cbn.
  intros E. assert (N : k <> MovedFrom /\ a' = upd (upd a y (Some MovedFrom)) x (Some k)) by (destruct k; try discriminate; apply some_inj in E; split; [discriminate|congruence| discriminate|congruence]).
  destruct N as [N ->]. apply held_alive in Ky; [|assumption]. assert (D : x <> y) by congruence.
  destruct (obj_move_ok (s_heap s) ow y!0 y!1 x!0 x!1 oy k I Ky E0 E1) as (h' & o' & r & w0 & w1 & l0 & l1 & Eo & I' & A & L); try sl.
  rewrite Eo. cbn. eexists. split; [reflexivity|]. apply (related_put2 s a ow _ x w0 w1 _ _ y l0 l1); auto. apply alive_held, A.
Qed.
Ltac nodup := repeat constructor; cbn [In]; intros G; repeat destruct G as [G|G]; try contradiction; revert G; apply slots2; first [left; congruence | right; lia].
Lemma assign_ok s a x y a' : related s a -> vstep a (Assign x y) = Some a' -> exists s', step s (Assign x y) = Ok s' /\ related s' a'.
Proof.
  intros (ow & I & T & H). cbn. unfold var. pose proof (H x) as Hx. pose proof (H y) as Hy.
  destruct (a x) as [kx|] eqn:Ax; [|discriminate]. destruct (holding_live _ _ _ _ Hx) as (ox & -> & Kx). cbn.
  destruct (a y) as [k|] eqn:Ay; [|discriminate]. destruct (holding_live _ _ _ _ Hy) as (oy & -> & Ky). cbn.
  destruct (Nat.eqb_spec x y) as [->|D]. { intros E. apply some_inj in E as <-. exists s. split; [reflexivity|]. exists ow. auto. }
  intros E. assert (N : k <> MovedFrom /\ a' = upd a x (Some k)) by (destruct k; try discriminate; apply some_inj in E; split; [discriminate|congruence| discriminate|congruence]).
  destruct N as [N ->]. apply held_alive in Ky; [|assumption]. destruct Kx as (K0 & K1 & _).
  destruct (obj_assign_ok (s_heap s) ow y!0 y!1 x!2 x!3 x!0 x!1 oy k ox I Ky) as (h' & o' & w0 & w1 & Eo & I' & A); auto; [nodup|].
  rewrite Eo. cbn. eexists. split; [reflexivity|]. apply (related_put s a ow _ x w0 w1); auto; [|apply alive_held, A].
  eapply inv_ext; [|apply (place h' _ w0 w1 x I')]; po; auto.
  intros u. pt; try congruence; symmetry; apply T; lia.
Qed.
Lemma move_assign_ok s a x y a' : related s a -> vstep a (MoveAssign x y) = Some a' -> exists s', step s (MoveAssign x y) = Ok s' /\ related s' a'.
Proof.
  intros (ow & I & T & H). cbn. unfold var. pose proof (H x) as Hx. pose proof (H y) as Hy.
  destruct (a x) as [kx|] eqn:Ax; [|discriminate]. destruct (holding_live _ _ _ _ Hx) as (ox & -> & Kx). cbn.
  destruct (a y) as [k|] eqn:Ay; [|discriminate]. destruct (holding_live _ _ _ _ Hy) as (oy & -> & Ky). cbn.
  destruct (Nat.eqb_spec x y) as [->|D]. { intros E. apply some_inj in E as <-. exists s. split; [reflexivity|]. exists ow. auto. }
  intros E. assert (N : k <> MovedFrom /\ a' = upd (upd a y (Some MovedFrom)) x (Some k)) by (destruct k; try discriminate; apply some_inj in E; split; [discriminate|congruence| discriminate|congruence]).
  destruct N as [N ->]. apply held_alive in Ky; [|assumption]. destruct Kx as (K0 & K1 & _).
  destruct (obj_move_assign_ok (s_heap s) ow y!0 y!1 x!2 x!3 x!0 x!1 oy k ox I Ky) as (h' & o' & r & w0 & w1 & l0 & l1 & Eo & I' & A & L); auto; [nodup|].
  rewrite Eo. cbn. eexists. split; [reflexivity|]. apply (related_put2 s a ow _ x w0 w1 _ _ y l0 l1); auto; [|apply alive_held, A].
  eapply inv_ext; [|apply (place h' _ w0 w1 x I')]; po; auto.
  intros u. pt; try congruence; symmetry; apply T; lia.
Qed.
Lemma destroy_ok s a x a' : related s a -> vstep a (Destroy x) = Some a' -> exists s', step s (Destroy x) = Ok s' /\ related s' a'.
Proof.
  intros (ow & I & T & H). cbn. unfold var. pose proof (H x) as Hx.
  destruct (a x) as [kx|] eqn:Ax; [|discriminate]. destruct (holding_live _ _ _ _ Hx) as (ox & -> & Kx). cbn.
  intros E. apply some_inj in E as <-. destruct Kx as (K0 & K1 & _).
  destruct (release_ok (s_heap s) ow x!0 x!1 ox I) as (h' & E & I'); auto; [sl|]. rewrite E. cbn.
  eexists. split; [reflexivity|]. apply (related_put s a ow _ x None None); auto. cbn. auto.
Qed.
Lemma step_ok s a o a' : related s a -> vstep a o = Some a' -> exists s', step s o = Ok s' /\ related s' a'.
Proof.
  destruct o; [apply new_ok|apply view_ok|apply copy_ok|apply move_ok|apply assign_ok|apply move_assign_ok|apply destroy_ok].
Qed.
Lemma run_ok l s a a' : related s a -> vrun a l = Some a' -> exists s', run s l = Ok s' /\ related s' a'.
Proof.
  revert s a. induction l as [|o l IH]; intros s a R; cbn.
  - intros E. apply some_inj in E as <-. eauto.
  - destruct (vstep a o) as [a1|] eqn:E; [|discriminate]. destruct (step_ok s a o a1 R E) as (s1 & -> & R1). cbn. eauto.
Qed.

(** ** What can be seen *)
Lemma owns_seen h ow s c v mt : inv h ow -> owns (ow s) c v mt -> observe_core h c = Ok v.
Proof.
  intros I. destruct v as [[p d] t]. intros (a & W & -> & _). unfold observe_core, load. cbn. rewrite (i_has _ _ I _ _ _ W). cbn.
  unfold read_range. rewrite Z.leb_refl. replace (0 <=? len d) with true by (symmetry; apply Z.leb_le; apply len_nonneg). cbn.
  rewrite Z.leb_refl. cbn. unfold slice. rewrite Z.sub_0_r. cbn. unfold len. rewrite Nat2Z.id. now rewrite firstn_all.
Qed.
Lemma related_seen s a x v : related s a -> a x = Some (Owns v) -> observe s x = Ok v.
Proof.
  intros (ow & I & T & H) E. pose proof (H x) as Hx. rewrite E in Hx. destruct (holding_live _ _ _ _ Hx) as (o & Eo & K).
  apply held_alive in K; [|discriminate]. destruct v as [v vm]. destruct K as (pv & vm' & (-> & ->) & M & N & _).
  unfold observe, var. rewrite Eo. cbn. rewrite (owns_seen _ ow _ _ _ _ I M). cbn.
  destruct vm as [v'|], (o_member o) as [m|]; cbn in N; try easy. now rewrite (owns_seen _ ow _ _ _ _ I N).
Qed.
Lemma related_dead s a x : related s a -> (a x = None <-> s_env s x = None).
Proof. intros (ow & _ & _ & H). specialize (H x). destruct (a x), (s_env s x); cbn in H; try easy. Qed.
Lemma related_buffer s a b : related s a -> cells (s_heap s) b <> None -> exists x o, s_env s x = Some o /\ In b (buffers o).
Proof.
  intros (ow & I & T & H) N. destruct (cells (s_heap s) b) as [l|] eqn:E; [|easy]. destruct (i_all _ _ I _ _ E) as ([x k] & W).
  exists x. pose proof (H x) as Hx. destruct k as [|[|k]]; [| |rewrite T in W by lia; discriminate].
  - rewrite W in Hx. destruct (s_env s x) as [o|]; [|destruct (a x); cbn in Hx; easy]. exists o. split; [reflexivity|].
    destruct (a x); [|easy]. destruct Hx as (K & _). cbn in K. unfold buffers, of_core. rewrite <- K. now left.
  - rewrite W in Hx. destruct (s_env s x) as [o|]; [|destruct (a x); cbn in Hx; easy]. exists o. split; [reflexivity|].
    destruct (a x); [|easy]. destruct Hx as (_ & K & _). cbn in K. unfold buffers. apply in_or_app. right. destruct (o_member o); [|easy]. unfold of_core. cbn in K. rewrite <- K. now left.
Qed.
Lemma buffers_slots s a : related s a -> exists ow : owners, inv (s_heap s) ow /\
  forall x o b, s_env s x = Some o -> In b (buffers o) -> exists k l, ow (x, k) = Some (b, l).
Proof.
  intros (ow & I & T & H). exists ow. split; [assumption|]. intros x o b E B. pose proof (H x) as Hx. rewrite E in Hx.
  destruct (a x) as [k|]; [|easy]. destruct Hx as (K0 & K1 & _). unfold buffers in B. apply in_app_or in B as [B|B].
  - exists 0%nat. unfold of_core in B. destruct (c_own _); [|easy]. destruct B as [->|[]]. destruct (ow x!0) as [[b' l]|]; [|easy]. cbn in K0. apply some_inj in K0 as ->. eauto.
  - exists 1%nat. destruct (o_member o) as [m|]; [|easy]. unfold of_core in B. cbn in K1. destruct (c_own m); [|easy]. destruct B as [->|[]]. destruct (ow x!1) as [[b' l]|]; [|easy]. cbn in K1. apply some_inj in K1 as ->. eauto.
Qed.
Lemma related_buffers s a : related s a -> 
  (forall x o b, s_env s x = Some o -> In b (buffers o) -> cells (s_heap s) b <> None) /\
  (forall x y o o' b, s_env s x = Some o -> s_env s y = Some o' -> In b (buffers o) -> In b (buffers o') -> x = y).
Proof.
  intros R. destruct (buffers_slots s a R) as (ow & I & H). split.
  - intros x o b E B. destruct (H x o b E B) as (k & l & W). rewrite (i_has _ _ I _ _ _ W). discriminate.
  - intros x y o o' b E E' B B'. destruct (H x o b E B) as (k & l & W). destruct (H y o' b E' B') as (k' & l' & W').
    pose proof (i_inj _ _ I _ _ _ _ _ W W') as X. congruence.
Qed.
Lemma related_nodup s a x o : related s a -> s_env s x = Some o -> NoDup (buffers o).
Proof.
  intros (ow & I & T & H) E. specialize (H x). rewrite E in H. destruct (a x) as [k|]; [|easy]. destruct H as (K0 & K1 & _).
  unfold buffers, of_core. destruct (c_own (o_core o)) as [b|] eqn:Eb, (o_member o) as [m|] eqn:Em; cbn in K1; try destruct (c_own m) as [b'|] eqn:Eb'; cbn; try (repeat constructor; easy).
  constructor; [|repeat constructor; easy]. intros [->|[]].
  destruct (ow x!0) as [[b0 l0]|] eqn:W0; [|easy]. destruct (ow x!1) as [[b1 l1]|] eqn:W1; [|easy]. cbn in K0, K1. apply some_inj in K0, K1. subst.
  pose proof (i_inj _ _ I _ _ _ _ _ W0 W1). congruence.
Qed.

(** ** Variables that are left alone *)
Lemma vstep_other (a : vars C) o a' x : vstep a o = Some a' -> ~ changes o x -> a' x = a x.
Proof.
  assert (U : forall (A : Type) (f : nat -> A) y v, x <> y -> upd f y v x = f x).
  { intros A f y v N. unfold upd. destruct (Nat.eqb_spec x y); congruence. }
  destruct o as [y p d m|y z p b e w|y z|y z|y z|y z|y]; cbn; intros E N;
  repeat match type of E with
  | match ?t with _ => _ end = _ => destruct t; try discriminate
  | (if ?t then _ else _) = _ => destruct t; try discriminate
  end; apply some_inj in E; subst a'; auto; try (rewrite !U by tauto; reflexivity); try (rewrite U by congruence; reflexivity).
Qed.
Lemma vrun_other l (a : vars C) a' x : vrun a l = Some a' -> Forall (fun o : op C => ~ changes o x) l -> a' x = a x.
Proof.
  revert a. induction l as [|o l IH]; intros a E F; cbn in E; [now apply some_inj in E as <-|].
  inversion F as [|? ? F1 F2]; subst. destruct (vstep a o) as [a1|] eqn:E1; [|discriminate].
  rewrite (IH a1 E F2). eapply vstep_other; eassumption.
Qed.
Lemma step_other (s : state C) o s' x : step s o = Ok s' -> ~ changes o x -> s_env s' x = s_env s x.
Proof.
  assert (U : forall (A : Type) (f : nat -> A) y v, x <> y -> upd f y v x = f x).
  { intros A f y v N. unfold upd. destruct (Nat.eqb_spec x y); congruence. }
  destruct o as [y p d m|y z p b e w|y z|y z|y z|y z|y]; cbn [step changes]; intros E N;
  unfold bind, caught, unused, var in E;
  repeat match type of E with
  | context [match ?t with _ => _ end] => lazymatch t with context [match _ with _ => _ end] => fail | _ => destruct t; try discriminate end
  end; apply Ok_inj in E; subst s'; cbn; auto; try (rewrite !U by tauto; reflexivity); try (rewrite U by congruence; reflexivity).
Qed.
Lemma run_other l (s : state C) s' x : run s l = Ok s' -> Forall (fun o : op C => ~ changes o x) l -> s_env s' x = s_env s x.
Proof.
  revert s. induction l as [|o l IH]; intros s E F; cbn in E; [now apply Ok_inj in E as <-|].
  inversion F as [|? ? F1 F2]; subst. destruct (step s o) as [s1| |] eqn:E1; try discriminate. cbn in E.
  rewrite (IH s1 E F2). eapply step_other; eassumption.
Qed.
Lemma vrun_app l l' (a : vars C) : vrun a (l ++ l') = match vrun a l with Some a => vrun a l' | None => None end.
Proof. revert a. induction l as [|o l IH]; intros a; cbn; [reflexivity|]. destruct (vstep a o); auto. Qed.
Lemma run_app l l' (s : state C) : run s (l ++ l') = (s <- run s l ;; run s l').
Proof. revert s. induction l as [|o l IH]; intros s; cbn; [reflexivity|]. destruct (step s o); cbn; auto. Qed.

Lemma view_seen pre x y p b e z rest a a1 a2 v : vrun no_vars pre = Some a -> vstep a (ViewOn x y p b e z) = Some a1 ->
  a1 x = Some (Views v) -> vrun a1 rest = Some a2 -> Forall (fun o : op C => ~ changes o x /\ ~ changes o y) rest ->
  exists s, run start (pre ++ ViewOn x y p b e z :: rest) = Ok s /\ observe s x = Ok v.
Proof.
  intros V V1 X V2 F. destruct (run_ok pre start no_vars a start_related V) as (s0 & E0 & R0).
  destruct (view_ok' s0 a x y p b e z a1 R0 V1) as (s1 & E1 & R1 & Sh). destruct v as [[[q w] t] vm].
  assert (Ax : a x = None) by (cbn in V1; destruct (a x); [discriminate|reflexivity]).
  destruct (Sh q w t vm Ax X) as (ox & oy & ad & vp & d & vt & vm' & Ex & Ey & D & Ec & Eo & Ay & Rr). clear Sh.
  destruct (run_ok rest s1 a1 a2 R1 V2) as (s2 & E2 & R2).
  exists s2. split. { rewrite run_app, E0. cbn [bind run]. rewrite E1. cbn. assumption. }
  assert (Fx : Forall (fun o : op C => ~ changes o x) rest) by (eapply Forall_impl; [|exact F]; cbn; tauto).
  assert (Fy : Forall (fun o : op C => ~ changes o y) rest) by (eapply Forall_impl; [|exact F]; cbn; tauto).
  pose proof (run_other _ _ _ _ E2 Fx) as Sx. pose proof (run_other _ _ _ _ E2 Fy) as Sy.
  pose proof (vrun_other _ _ _ _ V2 Fx) as Vx. pose proof (vrun_other _ _ _ _ V2 Fy) as Vy.
  rewrite Ex in Sx. rewrite Ey in Sy. rewrite X in Vx. rewrite (vstep_other _ _ _ y V1), Ay in Vy by (cbn; congruence).
  destruct R2 as (ow & I & T & H). pose proof (H x) as Hx. pose proof (H y) as Hy. rewrite Sx, Vx in Hx. rewrite Sy, Vy in Hy.
  cbn in Hx, Hy. apply held_alive in Hx; [|discriminate]. apply held_alive in Hy; [|discriminate].
  destruct Hy as (pv & vm1 & (-> & ->) & (ad' & W & Ec' & _) & _). rewrite Ec' in Eo. cbn in Eo. apply some_inj in Eo as ->.
  destruct Hx as (pv & vm2 & (-> & ->) & _ & M & _). cbn in M.
  unfold observe, var. rewrite Sx. cbn. rewrite Ec. unfold observe_core at 1, load. cbn. rewrite (i_has _ _ I _ _ _ W). cbn. rewrite Rr. cbn.
  destruct vm as [v'|], (o_member ox) as [m|]; cbn in M; try easy. now rewrite (owns_seen _ ow _ _ _ _ I M).
Qed.
End S.
