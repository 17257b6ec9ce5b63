(** Cut distributions (C40): DistributionData (laws 4 and 44 and the outer level of 61 and 67), equiprobable bins. *)
From Coq Require Import ZArith Bool List Lia.
From Coq Require Import ZifyBool ZifyNat.
From Verif Require Import PropLemmasBasic Truncated SimpleLaws CutOff.
Import ListNotations.
Open Scope Z_scope.

Lemma app_cut {A} (a b k r : list A) : k ++ r = a ++ b -> len a <= len k -> exists k', k = a ++ k' /\ k' ++ r = b.
Proof.
  revert k. induction a as [|x a IH]; intros k Q L; [exists k; auto|].
  rewrite len_cons in L. destruct k as [|y k]; [rewrite len_nil in L; pose proof (len_nonneg a); lia|]. cbn [app] in Q. rewrite len_cons in L.
  assert (x = y) as -> by congruence. destruct (IH k ltac:(congruence) ltac:(lia)) as (k' & -> & G). exists k'; auto.
Qed.

Section Header.
  Context {D : Type}.
  Variables (v : view) (pfx : list double) (locb : Z) (vals : list double) (fs : list (Z -> list double)) (kept lost : list double).
  Hypothesis C : content v kept.
  Hypothesis Hl : lost <> [].
  Hypothesis E : kept ++ lost = dd_layout pfx locb [vals] fs.
  Hypothesis Hlen : len vals = len fs.
  Hypothesis Hlocb : 1 <= locb.
  Hypothesis Hpos : Forall (fun f => forall b, 0 < len (f b)) fs.
  Let b0 := dd_b0 pfx locb [vals] fs.
  Hypothesis Hsize : b0 + len (dd_bodies b0 fs) <= 2 ^ 31.
  Hypothesis Hhead : len pfx + 1 + 2 * len fs <= len kept.
  Let cols := dd_cols pfx locb [vals] fs.
  Let cd := dd_cd v pfx [vals] fs.

  Lemma ddc_all : all_len (len fs) cols.
  Proof. apply dd_cols_all. repeat constructor. exact Hlen. Qed.
  Lemma ddc_bounds : 0 <= len pfx /\ 0 <= len fs /\ 0 <= len (dd_bodies b0 fs) /\ b0 = locb + len pfx + 1 + 2 * len fs.
  Proof.
    split; [apply len_nonneg|]. split; [apply len_nonneg|]. split; [apply len_nonneg|].
    unfold b0, dd_b0. change (len [vals]) with 1. lia.
  Qed.
  Lemma ddc_len_cols : len (cd_layout (len fs) cols) = 1 + 2 * len fs.
  Proof. unfold cd_layout. rewrite len_cons, (len_concat _ _ ddc_all). unfold cols, dd_cols. rewrite len_app. change (len [vals]) with 1. rewrite len_cons, len_nil. lia. Qed.
  Lemma ddc_split : exists d, kept = pfx ++ cd_layout (len fs) cols ++ d /\ d ++ lost = dd_bodies b0 fs.
  Proof.
    rewrite dd_layout_eq in E. rewrite app_assoc in E. destruct (app_cut _ _ _ _ E) as (d & -> & F).
    - rewrite len_app. pose proof ddc_len_cols as L. fold cols. lia.
    - exists d. rewrite <- app_assoc. split; [reflexivity|exact F].
  Qed.
  Lemma ddc_content : content (dd_vv v pfx [vals] fs) (cd_layout (len fs) cols).
  Proof.
    destruct ddc_split as (d & Ek & _). unfold dd_vv. pose proof ddc_len_cols. pose proof ddc_bounds. change (dd_nc [vals]) with 2.
    apply (sub_content v pfx _ d); [rewrite <- Ek; exact (proj1 C)|lia|lia].
  Qed.
  Lemma ddc_make : cd_make (dd_vv v pfx [vals] fs) 2 = Ok cd.
  Proof. pose proof ddc_bounds. apply (cd_make_has _ _ _ ddc_all (content_has _ _ ddc_content)); [lia|reflexivity]. Qed.
  Lemma ddc_N : cd_N Debug cd = Ok (len fs).
  Proof. pose proof ddc_bounds. apply (cd_N_has Debug _ _ _ (content_has _ _ ddc_content)); lia. Qed.
  Lemma ddc_verify i : 1 <= i <= len fs -> dd_verify Debug cd i = Ok tt.
  Proof.
    intros Hi. pose proof ddc_bounds. unfold dd_verify. cbn [debug]. rewrite ddc_N. cbn [bind]. rewrite u64_small by lia.
    exact (check_verifyIndex Debug i 1 (len fs) Hi).
  Qed.
  Lemma ddc_value j x : nth_error vals j = Some x -> dd_value Debug cd 1 (Z.of_nat j + 1) = Ok x.
  Proof.
    intros Hj. pose proof ddc_bounds. pose proof (nth_error_len _ _ _ Hj). unfold dd_value. rewrite ddc_verify by lia. cbn [bind].
    apply (cd_value_has Debug _ _ _ ddc_all (content_has _ _ ddc_content) ltac:(lia) _ 0 vals j); try reflexivity. exact Hj.
  Qed.
  Lemma ddc_pre pre f post : fs = pre ++ f :: post ->
    dd_bodies b0 fs = dd_bodies b0 pre ++ f (b0 + len (dd_bodies b0 pre)) ++ dd_bodies (b0 + len (dd_bodies b0 (pre ++ [f]))) post
    /\ len (dd_bodies b0 (pre ++ [f])) = len (dd_bodies b0 pre) + len (f (b0 + len (dd_bodies b0 pre)))
    /\ 0 < len (f (b0 + len (dd_bodies b0 pre)))
    /\ len (dd_bodies b0 fs) = len (dd_bodies b0 pre) + len (f (b0 + len (dd_bodies b0 pre))) + len (dd_bodies (b0 + len (dd_bodies b0 (pre ++ [f]))) post).
  Proof.
    intros F.
    assert (LX : len (dd_bodies b0 (pre ++ [f])) = len (dd_bodies b0 pre) + len (f (b0 + len (dd_bodies b0 pre)))).
    { rewrite dd_bodies_app, len_app. cbn [dd_bodies]. rewrite app_nil_r. reflexivity. }
    assert (HX : dd_bodies b0 fs = dd_bodies b0 pre ++ f (b0 + len (dd_bodies b0 pre)) ++ dd_bodies (b0 + len (dd_bodies b0 (pre ++ [f]))) post).
    { rewrite F at 1. rewrite dd_bodies_app. cbn [dd_bodies]. rewrite LX, Z.add_assoc. reflexivity. }
    split; [exact HX|]. split; [exact LX|]. split.
    - assert (HP := Hpos). rewrite F in HP. apply Forall_app in HP as [_ HP]. inversion HP as [|? ? Hf _]. apply Hf.
    - rewrite HX, !len_app, LX. lia.
  Qed.
  Lemma ddc_LOCC pre f post : fs = pre ++ f :: post -> dd_LOCC Debug cd (len pre + 1) = Ok (b0 + len (dd_bodies b0 pre)).
  Proof.
    intros F. pose proof ddc_bounds. destruct (ddc_pre _ _ _ F) as (_ & _ & P & L). pose proof F as F0. apply (f_equal len) in F0. rewrite len_app, len_cons in F0.
    pose proof (len_nonneg pre). pose proof (len_nonneg post). pose proof (len_nonneg (dd_bodies b0 pre)). pose proof (len_nonneg (dd_bodies (b0 + len (dd_bodies b0 (pre ++ [f]))) post)).
    unfold dd_LOCC, dd_value. rewrite ddc_verify by lia. cbn [bind]. change (cd_nc cd) with 2. change cd with (ColumnData (dd_vv v pfx [vals] fs) 2).
    rewrite (cd_value_has Debug _ _ _ ddc_all (content_has _ _ ddc_content) ltac:(lia) _
               1 (map dbl (dd_locs b0 fs)) (length pre) (dbl (b0 + len (dd_bodies b0 pre)))); try reflexivity.
    - cbn [bind]. apply to_int_dbl. lia.
    - rewrite F at 1. rewrite dd_locs_app. cbn [dd_locs]. rewrite map_app. cbn [map].
      rewrite <- (length_dd_locs b0 pre), <- (map_length dbl). rewrite nth_error_mid. reflexivity.
  Qed.

  Variable conv : Z -> Z.
  Hypothesis Hconv : forall z, 0 <= z < 2 ^ 31 -> conv z = z.
  Lemma ddc_rel pre f post : fs = pre ++ f :: post ->
    dd_relative Debug conv locb cd (len pre + 1) = Ok (len pfx + 2 + 2 * len fs + len (dd_bodies b0 pre)).
  Proof.
    intros F. pose proof ddc_bounds. destruct (ddc_pre _ _ _ F) as (_ & _ & P & L).
    pose proof (len_nonneg (dd_bodies b0 pre)). pose proof (len_nonneg (dd_bodies (b0 + len (dd_bodies b0 (pre ++ [f]))) post)).
    unfold dd_relative. rewrite (ddc_LOCC _ _ _ F). cbn [bind]. rewrite Hconv by lia. f_equal. lia.
  Qed.

  Variable gd : double -> Z -> view -> outcome D.
  Hypothesis Hfull : forall pre f post x w, fs = pre ++ f :: post -> nth_error vals (length pre) = Some x ->
    content w (f (b0 + len (dd_bodies b0 pre))) -> exists d, gd x (b0 + len (dd_bodies b0 pre)) w = Ok d.
  Hypothesis Hcut : forall pre f x w k, fs = pre ++ [f] -> nth_error vals (length pre) = Some x ->
    cut_of k (f (b0 + len (dd_bodies b0 pre))) -> content w k -> rejected (gd x (b0 + len (dd_bodies b0 pre)) w).

  Lemma ddc_one pre f post : fs = pre ++ f :: post ->
    let o := dd_distribution Debug gd conv v locb cd (len fs) (len pre + 1) in
    ok_or_rejected o /\ (post = [] -> rejected o).
  Proof.
    intros F o. pose proof ddc_bounds as B. destruct (ddc_pre _ _ _ F) as (HX & LX & P & L). pose proof F as F0. apply (f_equal len) in F0. rewrite len_app, len_cons in F0.
    pose proof (len_nonneg pre). pose proof (len_nonneg post). pose proof (len_nonneg (dd_bodies b0 pre)). pose proof (len_nonneg (dd_bodies (b0 + len (dd_bodies b0 (pre ++ [f]))) post)).
    assert (R : rejected o -> ok_or_rejected o /\ (post = [] -> rejected o)) by (intros R; split; [right; exact R|intros _; exact R]).
    destruct (nth_error vals (length pre)) as [x|] eqn:Ex; [|apply nth_error_None in Ex; unfold len in *; lia].
    destruct ddc_split as (d & Ek & Ed). pose proof ddc_len_cols as Lc.
    assert (Lk : len kept = len pfx + 1 + 2 * len fs + len d) by (rewrite Ek, !len_app; lia).
    assert (Ld : len d + len lost = len (dd_bodies b0 fs)) by (rewrite <- Ed, len_app; reflexivity). pose proof (len_nonneg lost).
    unfold o, dd_distribution in *. clear o.
    pose proof (ddc_value _ _ Ex) as V. change (Z.of_nat (length pre)) with (len pre) in V. rewrite V in *. cbn [bind] in *.
    rewrite (ddc_LOCC _ _ _ F) in *. cbn [bind] in *. rewrite (ddc_rel _ _ _ F) in *. cbn [bind] in *.
    destruct (iter_cut v kept (len pfx + 2 + 2 * len fs + len (dd_bodies b0 pre)) C ltac:(lia)) as [[G Y]|[_ Y]]; rewrite Y in *; cbn [bind] in *; [|apply R; apply rej_range].
    replace (Z.to_nat (len fs - (len pre + 1))) with (length post) in * by (unfold len in *; lia).
    rewrite (u64_small (b0 + len (dd_bodies b0 pre))) in * by lia.
    assert (Q : d ++ lost = dd_bodies b0 pre ++ (f (b0 + len (dd_bodies b0 pre)) ++ dd_bodies (b0 + len (dd_bodies b0 (pre ++ [f]))) post)) by (rewrite Ed; exact HX).
    destruct (app_cut _ _ _ _ Q ltac:(lia)) as (k & Edk & Ekl). pose proof (f_equal len Edk) as Ldk. rewrite len_app in Ldk.
    destruct post as [|f' post]; cbn [length seqZ dd_right] in *.
    - cbn [bind] in *. apply R. apply (Hcut pre f x _ k F Ex).
      + exists lost. split; [exact Hl|]. cbn [dd_bodies] in Ekl. rewrite app_nil_r in Ekl. exact Ekl.
      + apply (sub_content_tail v (pfx ++ cd_layout (len fs) cols ++ dd_bodies b0 pre) k).
        * replace ((pfx ++ cd_layout (len fs) cols ++ dd_bodies b0 pre) ++ k) with kept; [exact C|]. rewrite Ek, Edk. las.
        * rewrite !len_app. lia.
    - pose proof (ddc_rel (pre ++ [f]) f' post ltac:(rewrite <- app_assoc; exact F)) as Rl. rewrite len_app, len_cons, len_nil in Rl. replace (len pre + (1 + 0) + 1) with (len pre + 1 + 1) in Rl by lia.
      rewrite Rl in *. cbn [bind] in *.
      destruct (Z.ltb_spec (len pfx + 2 + 2 * len fs + len (dd_bodies b0 pre)) (len pfx + 2 + 2 * len fs + len (dd_bodies b0 (pre ++ [f])))); [|lia].
      destruct (iter_cut v kept (len pfx + 2 + 2 * len fs + len (dd_bodies b0 (pre ++ [f]))) C ltac:(lia)) as [[G' Y']|[_ Y']]; rewrite Y' in *; cbn [bind] in *; [|apply R; apply rej_range].
      split; [|intros; discriminate]. left. apply (Hfull pre f (f' :: post) x _ F Ex).
      destruct (app_cut _ _ _ _ Ekl ltac:(lia)) as (k' & -> & _).
      apply (sub_content v (pfx ++ cd_layout (len fs) cols ++ dd_bodies b0 pre) _ k').
      + replace ((pfx ++ cd_layout (len fs) cols ++ dd_bodies b0 pre) ++ f (b0 + len (dd_bodies b0 pre)) ++ k') with kept; [exact (proj1 C)|]. rewrite Ek, Edk. las.
      + rewrite !len_app. lia.
      + rewrite !len_app. lia.
  Qed.
  Lemma ddc_loop : rejected (mapM (dd_distribution Debug gd conv v locb cd (len fs)) (seqZ 1 (length fs))).
  Proof.
    assert (Hne : fs <> []).
    { intros F. destruct ddc_split as (d & _ & Ed). rewrite F in Ed. cbn [dd_bodies] in Ed. apply app_eq_nil in Ed as [_ Ed]. exact (Hl Ed). }
    destruct (exists_last Hne) as (pre & f & F).
    apply (mapM_rejected _ _ (len pre + 1)).
    - intros y Iy. apply seqZ_In in Iy.
      destruct (nth_error fs (Z.to_nat (y - 1))) as [g|] eqn:Ny; [|apply nth_error_None in Ny; lia].
      destruct (nth_split_len _ _ _ Ny) as (p & q & Fq & Lp).
      assert (y = len p + 1) as -> by (unfold len; lia). exact (proj1 (ddc_one p g q Fq)).
    - apply seqZ_In. pose proof F as F0. apply (f_equal len) in F0. rewrite len_app, len_cons, len_nil in F0. pose proof (len_nonneg pre). unfold len in *. lia.
    - exact (proj2 (ddc_one pre f [] F) eq_refl).
  Qed.
End Header.

(** DistributionData *)
Lemma dd_cut {D} (gd : double -> Z -> view -> outcome D) v nbt int locb vals fs kept lost :
  content v kept -> lost <> [] -> kept ++ lost = dd_layout (id_layout nbt int) locb [vals] fs ->
  len int = len nbt -> len vals = len fs -> 1 <= locb -> Forall (fun f => forall b, 0 < len (f b)) fs ->
  let b0 := ddh_b0 nbt locb fs in
  b0 + len (dd_bodies b0 fs) <= 2 ^ 31 ->
  (forall pre f post x w, fs = pre ++ f :: post -> nth_error vals (length pre) = Some x ->
     content w (f (b0 + len (dd_bodies b0 pre))) -> exists d, gd x (b0 + len (dd_bodies b0 pre)) w = Ok d) ->
  (forall pre f x w k, fs = pre ++ [f] -> nth_error vals (length pre) = Some x ->
     cut_of k (f (b0 + len (dd_bodies b0 pre))) -> content w k -> rejected (gd x (b0 + len (dd_bodies b0 pre)) w)) ->
  rejected (dd_make Debug gd locb v).
Proof.
  intros C Hl E Hint Hlen Hlocb Hpos b0 Hsize Hfull Hcut.
  assert (B0 : dd_b0 (id_layout nbt int) locb [vals] fs = b0) by (apply ddh_b0_eq; assumption).
  pose proof (len_id_layout nbt int Hint) as Li.
  assert (Lfull : len (dd_layout (id_layout nbt int) locb [vals] fs) = 2 + 2 * len nbt + 2 * len fs + len (dd_bodies b0 fs)).
  { rewrite dd_layout_eq, !len_app, Li, B0. rewrite (ddc_len_cols _ _ _ _ Hlen). lia. }
  pose proof (len_nonneg nbt). pose proof (len_nonneg fs). pose proof (len_nonneg (dd_bodies b0 fs)).
  assert (E0 : b0 = locb + 2 * len nbt + 2 + 2 * len fs) by reflexivity.
  assert (E1 : kept ++ lost = [] ++ dbl (len nbt) :: (map dbl nbt ++ map dbl int ++ dbl (len fs) :: concat [vals] ++ map dbl (dd_locs (dd_b0 (id_layout nbt int) locb [vals] fs) fs) ++ dd_bodies (dd_b0 (id_layout nbt int) locb [vals] fs) fs)).
  { rewrite E. unfold dd_layout, id_layout. fold (dd_b0 (id_layout nbt int) locb [vals] fs). las. }
  pose proof (round_cut v kept lost [] (len nbt) _ 1 C E1 eq_refl) as X. rewrite len_nil in X. specialize (X ltac:(lia) ltac:(lia)).
  assert (E2 : kept ++ lost = (dbl (len nbt) :: map dbl nbt ++ map dbl int) ++ dbl (len fs) :: (concat [vals] ++ map dbl (dd_locs (dd_b0 (id_layout nbt int) locb [vals] fs) fs) ++ dd_bodies (dd_b0 (id_layout nbt int) locb [vals] fs) fs)).
  { rewrite E1. las. }
  pose proof (round_cut v kept lost _ (len fs) _ (1 + 2 * len nbt + 1) C E2) as Y. rewrite len_cons, len_app, !len_map in Y. specialize (Y ltac:(lia) ltac:(lia) ltac:(lia)).
  pose proof (size_cut v kept lost [] (len nbt) _ 1 C E1 eq_refl) as X'. rewrite len_nil in X'. specialize (X' ltac:(lia) ltac:(lia)).
  pose proof (size_cut v kept lost _ (len fs) _ (2 + 2 * len nbt) C E2) as Y'. rewrite len_cons, len_app, !len_map in Y'. specialize (Y' ltac:(lia) ltac:(lia) ltac:(lia)).
  unfold dd_make. cutcase X. cutcase Y. rewrite u32_small by lia.
  destruct (Z_lt_ge_dec (len kept) (2 + 2 * len nbt + 2 * len fs)) as [S|S].
  { rewrite (verify_short v kept _ C S). apply rej_std. }
  rewrite (verify_at_least_has v kept _ (proj1 C)) by lia. cbn [bind].
  unfold dd_generateBlocks. cutcase X'. cutcase Y'.
  destruct (iter_cut v kept (2 + 2 * len nbt) C ltac:(lia)) as [[_ I1]|[? _]]; [|lia]. rewrite I1. cbn [bind].
  destruct (iter_cut v kept (2 + 2 * len nbt + 2 * len fs + 1) C ltac:(lia)) as [[_ I2]|[? _]]; [|lia]. rewrite I2. cbn [bind].
  assert (Hh : len (id_layout nbt int) + 1 + 2 * len fs <= len kept) by lia.
  destruct (ddc_split v (id_layout nbt int) locb vals fs kept lost C E Hlen Hh) as (d & Ek & _).
  assert (Ci : content (sub v (vbeg v) (vbeg v + (2 + 2 * len nbt) - 1)) (id_layout nbt int)).
  { apply (sub_content v [] (id_layout nbt int) (cd_layout (len fs) (dd_cols (id_layout nbt int) locb [vals] fs) ++ d)); [cbn [app]; rewrite <- Ek; exact (proj1 C)|rewrite len_nil; lia|rewrite len_nil; lia]. }
  destruct (id_has Debug _ _ _ Hint (content_has _ _ Ci)) as [Mi _]. rewrite Mi. cbn [bind].
  rewrite <- B0 in Hsize.
  pose proof (ddc_make v (id_layout nbt int) locb vals fs kept lost C E Hlen Hlocb Hsize Hh) as M.
  replace (sub v (vbeg v + (2 + 2 * len nbt) - 1) (vbeg v + (2 + 2 * len nbt + 2 * len fs + 1) - 1)) with (dd_vv v (id_layout nbt int) [vals] fs)
    by (unfold dd_vv; rewrite Li; change (dd_nc [vals]) with 2; f_equal; lia).
  rewrite M. cbn [bind]. rewrite (ddc_N v (id_layout nbt int) locb vals fs kept lost C E Hlen Hlocb Hsize Hh). cbn [bind].
  replace (Z.to_nat (len fs)) with (length fs) by (unfold len; lia). apply rej_bind.
  apply (ddc_loop v (id_layout nbt int) locb vals fs kept lost C Hl E Hlen Hlocb Hpos Hsize Hh as_int conv_int gd); rewrite B0; assumption.
Qed.

(** Law 4: outgoing energy distributions *)
Lemma tq_cut d words kept b w : tq_words d = Ok words -> tq_data d = [] -> len words < max_words ->
  cut_of kept words -> content w kept -> rejected (tq_make Debug (tq_value d) b w).
Proof.
  intros G Hd B (lost & Hl & E) C. unfold tq_words in G. rewrite Hd in G. unfold tq_make. apply rej_bind.
  exact (tp_truncated w _ _ _ _ words kept lost G B E Hl C).
Qed.
Lemma og_cut v nbt int locb ds words kept : og_generateXSS nbt int locb ds = Ok words -> Forall tq_valid ds ->
  Forall (fun d => tq_data d = []) ds -> 1 <= locb -> locb + len words <= 2 ^ 31 ->
  cut_of kept words -> content v kept -> rejected (og_make Debug locb v).
Proof.
  intros Hgen Hvalid Hdata Hlocb Hsize (lost & Hl & E) C.
  destruct (og_words_list nbt int locb ds words Hgen) as (ws & F & M).
  unfold og_generateXSS in Hgen. rewrite M in Hgen. cbn [bind] in Hgen. fold (tq_es ds ws) in M, Hgen.
  destruct (tq_es_spec ds ws F) as (W1 & W2 & W3 & W4 & W5 & W6).
  set (fs := map const ws) in *.
  set (b0 := ddh_b0 nbt locb fs).
  destruct (dd_generateXSS_len nbt int locb _ fs words b0 W2 W4 Hgen) as [Hint Hlen].
  assert (Hs : b0 + len (dd_bodies b0 fs) <= 2 ^ 31) by (unfold b0, ddh_b0 in *; lia).
  assert (El : words = dd_layout (id_layout nbt int) locb [map tq_value ds] fs).
  { rewrite (dd_generateXSS_ok nbt int locb _ fs W1 W3 Hint ltac:(lia) Hs), W5 in Hgen. congruence. }
  assert (Hlv : len (map tq_value ds) = len fs) by (rewrite len_map; lia).
  assert (Hws : forall pre f post x, fs = pre ++ f :: post -> nth_error (map tq_value ds) (length pre) = Some x ->
            exists d w, nth_error ds (length pre) = Some d /\ x = tq_value d /\ tq_words d = Ok w /\ f = const w).
  { intros pre f post x Ep Hx.
    assert (Hf : nth_error fs (length pre) = Some f) by (rewrite Ep; apply nth_error_mid).
    unfold fs in Hf. rewrite nth_error_map in Hf, Hx.
    destruct (nth_error ws (length pre)) as [w|] eqn:Ew; [|discriminate].
    destruct (nth_error ds (length pre)) as [d|] eqn:Ed; [|discriminate].
    cbn in Hf, Hx. injection Hf as <-. injection Hx as <-. exists d, w.
    destruct (Forall2_nth _ _ _ _ _ F Ew) as (d' & Hd' & Hw'). rewrite Ed in Hd'. injection Hd' as <-. auto. }
  apply (dd_cut (tq_make Debug) v nbt int locb (map tq_value ds) fs kept lost C Hl ltac:(rewrite E; exact El) Hint Hlv Hlocb W3 Hs); fold b0.
  - intros pre f post x w Ep Hx Hw. destruct (Hws pre f post x Ep Hx) as (d & ww & Hd & -> & Hww & ->). unfold const in Hw.
    assert (Vd : tq_valid d) by (rewrite Forall_forall in Hvalid; apply Hvalid; eapply nth_error_In; exact Hd).
    exists (tq_value d, w). exact (proj1 (tq_has Debug d ww (b0 + len (dd_bodies b0 pre)) w Hww Vd (content_has _ _ Hw))).
  - intros pre f x w k Ep Hx Hk Hw. destruct (Hws pre f [] x Ep Hx) as (d & ww & Hd & -> & Hww & ->). unfold const in Hk.
    assert (Dd : tq_data d = []) by (rewrite Forall_forall in Hdata; apply Hdata; eapply nth_error_In; exact Hd).
    apply (tq_cut d ww k _ w Hww Dd); [|exact Hk|exact Hw].
    assert (L : len (dd_bodies b0 fs) = len (dd_bodies b0 pre) + len ww).
    { rewrite Ep, dd_bodies_app, len_app. cbn [dd_bodies]. unfold const at 1. rewrite app_nil_r. reflexivity. }
    pose proof (len_nonneg (dd_bodies b0 pre)). unfold max_words. assert (2 <= b0) by (unfold b0, ddh_b0; pose proof (len_nonneg nbt); pose proof (len_nonneg fs); lia). lia.
Qed.
