(** Cut angular distributions (C40): AngularDistributionData. *)
From Coq Require Import ZArith Bool List Lia Permutation.
From Coq Require Import ZifyBool ZifyNat.
From Verif Require Import PropLemmasBasic Truncated CutOff CutOffDist.
Import ListNotations.
Open Scope Z_scope.

(** Every distribution holds exactly the words its kind needs: EquiprobableAngularBins holds 33 cosines. *)
Definition ang_exact (d : angular (list double)) : Prop := match d with AEqui _ l => len l = 33 | _ => True end.

Lemma ang_eq_cut e l k w : len l = 33 -> cut_of k l -> content w k -> rejected (Angular.eq_make e w).
Proof.
  intros L K C. pose proof (cut_of_len _ _ K). pose proof (len_nonneg k). pose proof (has_bounds _ _ (proj1 C)) as B. unfold Angular.eq_make, throw_if.
  pose proof (vlen_content _ _ C) as V. pose proof (proj2 C) as E. rewrite u64_small by lia. destruct (Z.ltb_spec (vend w - vbeg w) 33); [apply rej_std|lia].
Qed.

Section AnCut.
  Variables (v : view) (locb : Z) (ds : list (angular (list double))) (kept lost : list double).
  Hypothesis C : content v kept.
  Hypothesis Hl : lost <> [].
  Hypothesis E : kept ++ lost = an_layout locb ds.
  Hypothesis Hvalid : Forall ang_valid ds.
  Hypothesis Hexact : Forall ang_exact ds.
  Hypothesis Hlocb : 1 <= locb.
  Hypothesis Hsize : locb + len (an_layout locb ds) <= 2 ^ 31.

  Let hd := cd_layout (len ds) [map ang_energy ds; map dbl (loccs (locb + 1 + 2 * len ds) ds)].
  Let vv := sub v (vbeg v) (vbeg v + (2 * len ds + 2) - 1).
  Let cd := ColumnData vv 2.

  Lemma anc_bounds : 0 <= len ds /\ 0 <= len (bodies ds) /\ locb + 1 + 2 * len ds + len (bodies ds) <= 2 ^ 31.
  Proof. rewrite len_an_layout in Hsize. nonneg. lia. Qed.
  Lemma anc_all : all_len (len ds) [map ang_energy ds; map dbl (loccs (locb + 1 + 2 * len ds) ds)].
  Proof. repeat constructor; rewrite len_map; [reflexivity|]. unfold len. rewrite length_loccs. reflexivity. Qed.
  Lemma anc_len_hd : len hd = 1 + 2 * len ds.
  Proof. unfold hd, cd_layout. rewrite len_cons, (len_concat _ _ anc_all). rewrite !len_cons, len_nil. lia. Qed.
  Lemma anc_full : kept ++ lost = hd ++ bodies ds.
  Proof. rewrite E. unfold hd, an_layout, cd_layout. las. Qed.

  Section Head.
  Hypothesis Hhead : 1 + 2 * len ds <= len kept.
  Lemma anc_split : exists k, kept = hd ++ k /\ k ++ lost = bodies ds.
  Proof. apply app_cut; [exact anc_full|]. rewrite anc_len_hd. exact Hhead. Qed.
  Lemma anc_content : content vv hd.
  Proof.
    destruct anc_split as (k & Ek & _). pose proof anc_len_hd. unfold vv. apply (sub_content v [] hd k); [cbn [app]; rewrite <- Ek; exact (proj1 C)|rewrite len_nil; lia|rewrite len_nil; lia].
  Qed.
  Lemma anc_make : cd_make vv 2 = Ok cd.
  Proof. pose proof anc_bounds. apply (cd_make_has _ _ _ anc_all (content_has _ _ anc_content)); [lia|reflexivity]. Qed.
  Lemma anc_N : cd_N Debug cd = Ok (len ds).
  Proof. pose proof anc_bounds. apply (cd_N_has Debug _ _ _ (content_has _ _ anc_content)); lia. Qed.
  Lemma anc_verify i : 1 <= i <= len ds -> an_verify Debug cd i = Ok tt.
  Proof.
    intros Hi. pose proof anc_bounds. unfold an_verify. cbn [debug]. rewrite anc_N. cbn [bind]. rewrite u64_small by lia.
    exact (check_verifyIndex Debug i 1 (len ds) Hi).
  Qed.
  Lemma anc_energy pre d post : ds = pre ++ d :: post -> an_incidentEnergy Debug cd (len pre + 1) = Ok (ang_energy d).
  Proof.
    intros F. unfold an_incidentEnergy. pose proof anc_bounds as B.
    rewrite anc_verify by (rewrite F, len_app, len_cons; nonneg; lia). cbn [bind].
    apply (cd_value_has Debug _ _ _ anc_all (content_has _ _ anc_content) ltac:(lia) 2 0 (map ang_energy ds) (length pre)); try reflexivity.
    rewrite F, map_app. cbn [map]. rewrite <- (map_length ang_energy pre). apply nth_error_mid.
  Qed.
  Lemma anc_sum pre d post : ds = pre ++ d :: post -> len (bodies ds) = len (bodies pre) + len (ang_body d) + len (bodies post).
  Proof. intros ->. rewrite bodies_app, bodies_cons, !len_app. lia. Qed.
  Lemma anc_valid pre d post : ds = pre ++ d :: post -> ang_valid d /\ ang_exact d.
  Proof.
    intros F. assert (In d ds) by (rewrite F; apply in_elt). rewrite Forall_forall in Hvalid, Hexact. auto.
  Qed.
  Lemma anc_LOCC pre d post : ds = pre ++ d :: post ->
    an_LOCC Debug cd (len pre + 1) = Ok (locc_of d (locb + 1 + 2 * len ds + len (bodies pre))).
  Proof.
    intros F. unfold an_LOCC. pose proof anc_bounds as B. pose proof (anc_sum _ _ _ F) as Lb. destruct (anc_valid _ _ _ F) as [Hd _].
    rewrite anc_verify by (rewrite F, len_app, len_cons; nonneg; lia). cbn [bind].
    rewrite (cd_value_has Debug _ _ _ anc_all (content_has _ _ anc_content) ltac:(lia) 2 1 (map dbl (loccs (locb + 1 + 2 * len ds) ds)) (length pre)
       (dbl (locc_of d (locb + 1 + 2 * len ds + len (bodies pre))))); try reflexivity.
    - cbn [bind]. apply trunc_to_int_dbl. pose proof (len_nonneg (bodies pre)); pose proof (len_nonneg (bodies post)).
      destruct d; cbn [locc_of]; [lia| |]; pose proof (ang_valid_nonempty _ Hd ltac:(discriminate)); lia.
    - rewrite F at 2. rewrite loccs_app, map_app. cbn [loccs map].
      rewrite <- (length_loccs (locb + 1 + 2 * len ds) pre), <- (map_length dbl). apply nth_error_mid.
  Qed.
  Lemma anc_relative pre d post : ds = pre ++ d :: post ->
    an_relative Debug locb cd (len pre + 1) = Ok (match d with AIso _ => 0 | _ => 1 + 2 * len ds + len (bodies pre) + 1 end).
  Proof.
    intros F. unfold an_relative. rewrite (anc_LOCC _ _ _ F). cbn [bind]. pose proof anc_bounds as B. pose proof (anc_sum _ _ _ F) as Lb.
    pose proof (len_nonneg (bodies pre)); pose proof (len_nonneg (bodies post)); pose proof (len_nonneg (ang_body d)).
    destruct d; cbn [locc_of]; [reflexivity| |].
    - destruct (Z.eqb_spec (locb + 1 + 2 * len ds + len (bodies pre)) 0); [lia|]. f_equal. rewrite u64_small; lia.
    - destruct (Z.eqb_spec (- (locb + 1 + 2 * len ds + len (bodies pre))) 0); [lia|]. f_equal. rewrite u64_small; lia.
  Qed.
  Lemma anc_right locator post : forall pre, ds = pre ++ post -> 0 < locator < 1 + 2 * len ds + len (bodies pre) + 1 ->
    (an_right Debug v locb cd locator (seqZ (len pre + 1) (length post)) = Ok (vend v) /\ bodies post = [])
    \/ (an_right Debug v locb cd locator (seqZ (len pre + 1) (length post)) = Ok (vbeg v + 1 + 2 * len ds + len (bodies pre))
        /\ 1 + 2 * len ds + len (bodies pre) <= len kept /\ bodies post <> [])
    \/ an_right Debug v locb cd locator (seqZ (len pre + 1) (length post)) = Throw OutOfRange /\ bodies post <> [].
  Proof.
    pose proof anc_bounds as B.
    induction post as [|d post IH]; intros pre F Hloc; cbn [length seqZ an_right]; [left; auto|].
    rewrite (anc_relative _ _ _ F). cbn [bind]. pose proof (anc_sum _ _ _ F) as Lb. destruct (anc_valid _ _ _ F) as [Hd _].
    assert (F' : ds = (pre ++ [d]) ++ post) by (rewrite F; las). pose proof (len_nonneg (bodies pre)); pose proof (len_nonneg (bodies post)); pose proof (len_nonneg (ang_body d)).
    assert (HI : (exists e, d = AIso e) \/ (forall e, d <> AIso e)) by (destruct d; [left; eauto|right; discriminate|right; discriminate]).
    destruct HI as [[e ->]|HI].
    - destruct (Z.ltb_spec locator 0); [lia|]. specialize (IH (pre ++ [AIso e]) F').
      assert (Q : bodies (pre ++ [AIso e]) = bodies pre) by (rewrite bodies_app; change (bodies [AIso e]) with (@nil double); apply app_nil_r).
      rewrite Q, len_app in IH. change (len [AIso e]) with 1 in IH.
      exact (IH Hloc).
    - pose proof (ang_valid_nonempty _ Hd HI) as P.
      replace (match d with AIso _ => 0 | _ => 1 + 2 * len ds + len (bodies pre) + 1 end) with (1 + 2 * len ds + len (bodies pre) + 1)
        by (destruct d; [exfalso; exact (HI e eq_refl)|reflexivity|reflexivity]).
      assert (N : bodies (d :: post) <> []) by (intros N; rewrite bodies_cons in N; apply (f_equal len) in N; rewrite len_app, len_nil in N; lia).
      destruct (Z.ltb_spec locator (1 + 2 * len ds + len (bodies pre) + 1)); [|lia].
      destruct (iter_cut v kept (1 + 2 * len ds + len (bodies pre) + 1) C ltac:(lia)) as [[G Y]|[_ Y]]; rewrite Y.
      + right; left. split; [f_equal; lia|]. split; [lia|exact N].
      + right; right. auto.
  Qed.

  Lemma anc_one pre d post : ds = pre ++ d :: post ->
    let o := an_distribution Debug v locb cd (len ds) (len pre + 1) in
    ok_or_rejected o /\ ((forall e, d <> AIso e) -> bodies post = [] -> rejected o).
  Proof.
    intros F o. pose proof anc_bounds as B. pose proof (anc_sum _ _ _ F) as Lb. destruct (anc_valid _ _ _ F) as [Hd Hx].
    pose proof (len_nonneg (bodies pre)); pose proof (len_nonneg (bodies post)); pose proof (len_nonneg (ang_body d)).
    assert (R : rejected o -> ok_or_rejected o /\ ((forall e, d <> AIso e) -> bodies post = [] -> rejected o)) by (intros R; split; [right; exact R|intros _ _; exact R]).
    unfold o, an_distribution in *. clear o.
    rewrite (anc_LOCC _ _ _ F) in *. cbn [bind] in *. rewrite (anc_energy _ _ _ F) in *. cbn [bind] in *. rewrite (anc_relative _ _ _ F) in *. cbn [bind] in *.
    assert (HI : (exists e, d = AIso e) \/ (forall e, d <> AIso e)) by (destruct d; [left; eauto|right; discriminate|right; discriminate]).
    destruct HI as [[e ->]|HI].
    { cbn [locc_of] in *. split; [left; eexists; reflexivity|]. intros N. destruct (N e eq_refl). }
    pose proof (ang_valid_nonempty _ Hd HI) as P.
    replace (match d with AIso _ => 0 | _ => 1 + 2 * len ds + len (bodies pre) + 1 end) with (1 + 2 * len ds + len (bodies pre) + 1) in *
      by (destruct d; [exfalso; exact (HI e eq_refl)|reflexivity|reflexivity]).
    assert (NZ : (locc_of d (locb + 1 + 2 * len ds + len (bodies pre)) =? 0) = false).
    { apply Z.eqb_neq. destruct d; cbn [locc_of]; [destruct (HI e eq_refl)|lia|lia]. }
    rewrite NZ in *.
    destruct (iter_cut v kept (1 + 2 * len ds + len (bodies pre) + 1) C ltac:(lia)) as [[G Y]|[_ Y]]; rewrite Y in *; cbn [bind] in *; [|apply R; apply rej_range].
    assert (F' : ds = (pre ++ [d]) ++ post) by (rewrite F; las).
    assert (Lpd : len (bodies (pre ++ [d])) = len (bodies pre) + len (ang_body d)).
    { rewrite bodies_app, bodies_cons, !len_app. change (bodies []) with (@nil double). rewrite len_nil. lia. }
    destruct anc_split as (k & Ek & Ekl). pose proof anc_len_hd as Lh.
    assert (Lk : len kept = 1 + 2 * len ds + len k) by (rewrite Ek, len_app; lia).
    assert (Ek' : k ++ lost = bodies pre ++ (ang_body d ++ bodies post)) by (rewrite Ekl, F, bodies_app, bodies_cons; reflexivity).
    destruct (app_cut _ _ _ _ Ek' ltac:(lia)) as (k1 & Ek1 & El1).
    replace (Z.to_nat (len ds - (len pre + 1))) with (length post) in * by (rewrite F, len_app, len_cons; unfold len; lia).
    pose proof (anc_right (1 + 2 * len ds + len (bodies pre) + 1) post (pre ++ [d]) F' ltac:(lia)) as AR.
    rewrite len_app in AR. change (len [d]) with 1 in AR.
    destruct AR as [[AR Hp]|[(AR & Gk & Hp)|[AR Hp]]]; rewrite AR in *; cbn [bind] in *.
    - apply R. rewrite Hp, app_nil_r in El1. assert (K : cut_of k1 (ang_body d)) by (exists lost; auto).
      assert (Cw : content (sub v (vbeg v + (1 + 2 * len ds + len (bodies pre) + 1) - 1) (vend v)) k1).
      { apply (sub_content_tail v (hd ++ bodies pre) k1); [rewrite <- app_assoc, <- Ek1, <- Ek; exact C|rewrite len_app; lia]. }
      destruct Hd as [e|e l Hle|e interp x p c l Hg Hint]; cbn [locc_of ang_energy ang_body] in *.
      + destruct (HI e eq_refl).
      + destruct (Z.ltb_spec (locb + 1 + 2 * len ds + len (bodies pre)) 0); [lia|]. exact (ang_eq_cut e l k1 _ Hx K Cw).
      + destruct (Z.ltb_spec (- (locb + 1 + 2 * len ds + len (bodies pre))) 0); [|lia]. unfold ta_make. apply rej_bind.
        destruct K as (r & Hr & Er). apply (tp_truncated _ interp x p c l k1 r Hg); try assumption. unfold max_words. lia.
    - split; [|intros _ Q; contradiction]. left.
      assert (Ld : len (ang_body d) <= len k1) by (pose proof (f_equal len Ek1) as Q; rewrite len_app in Q; lia).
      destruct (app_cut _ _ _ _ El1 Ld) as (k2 & Ek2 & _).
      assert (Cw : content (sub v (vbeg v + (1 + 2 * len ds + len (bodies pre) + 1) - 1) (vbeg v + 1 + 2 * len ds + len (bodies (pre ++ [d])))) (ang_body d)).
      { apply (sub_content v (hd ++ bodies pre) (ang_body d) k2); [|rewrite len_app; lia|rewrite len_app; lia].
        replace ((hd ++ bodies pre) ++ ang_body d ++ k2) with kept; [exact (proj1 C)|]. rewrite Ek, Ek1, Ek2. las. }
      destruct Hd as [e|e l Hle|e interp x p c l Hg Hint]; cbn [locc_of ang_energy ang_body] in *.
      + destruct (HI e eq_refl).
      + destruct (Z.ltb_spec (locb + 1 + 2 * len ds + len (bodies pre)) 0); [lia|]. unfold Angular.eq_make, throw_if.
        pose proof (proj2 Cw) as Q. rewrite u64_small by lia. match goal with |- context [?a <? 33] => destruct (Z.ltb_spec a 33) end; [lia|]. eexists; reflexivity.
      + destruct (Z.ltb_spec (- (locb + 1 + 2 * len ds + len (bodies pre))) 0); [|lia]. unfold ta_make.
        destruct (tp_generateXSS_inv _ _ _ _ _ _ Hg) as [A El]. pose proof (content_has _ _ Cw) as Hh. rewrite El in Hh at 2.
        destruct (tp_has Debug _ _ _ _ _ _ A Hint Hh) as [Mk _]. rewrite Mk. eexists; reflexivity.
    - apply R. apply rej_range.
  Qed.
  Lemma anc_loop : rejected (mapM (an_distribution Debug v locb cd (len ds)) (seqZ 1 (length ds))).
  Proof.
    (* the last distribution with words *)
    assert (L : exists pre d post, ds = pre ++ d :: post /\ (forall e, d <> AIso e) /\ bodies post = []).
    { destruct anc_split as (k & _ & Ekl). assert (N : bodies ds <> []) by (rewrite <- Ekl; intros N; apply app_eq_nil in N as [_ N]; exact (Hl N)).
      clear -N. induction ds as [|d r IH]; [destruct (N eq_refl)|].
      destruct (bodies r) as [|w b] eqn:Eb.
      - exists [], d, r. split; [reflexivity|]. split; [|exact Eb]. intros e ->. apply N. rewrite bodies_cons, Eb. reflexivity.
      - destruct (IH ltac:(discriminate)) as (pre & d' & post & -> & H1 & H2). exists (d :: pre), d', post. auto. }
    destruct L as (pre & d & post & F & HI & Hp).
    apply (mapM_rejected _ _ (len pre + 1)).
    - intros y Iy. apply seqZ_In in Iy.
      destruct (nth_error ds (Z.to_nat (y - 1))) as [g|] eqn:Ny; [|apply nth_error_None in Ny; lia].
      destruct (nth_split_len _ _ _ Ny) as (p & q & Fq & Lp).
      assert (y = len p + 1) as -> by (unfold len; lia). exact (proj1 (anc_one p g q Fq)).
    - apply seqZ_In. pose proof F as F0. apply (f_equal len) in F0. rewrite len_app, len_cons in F0. nonneg. unfold len in *. lia.
    - exact (proj2 (anc_one pre d post F) HI Hp).
  Qed.
  End Head.

  Lemma an_cut : rejected (an_make Debug locb v).
  Proof.
    pose proof anc_bounds as B. unfold an_make. apply rej_bind. unfold an_generateBlocks.
    pose proof (size_cut v kept lost [] (len ds) (map ang_energy ds ++ map dbl (loccs (locb + 1 + 2 * len ds) ds) ++ bodies ds) 1 C ltac:(rewrite E; reflexivity) eq_refl) as X.
    rewrite len_nil in X. specialize (X ltac:(lia) ltac:(lia)). cutcase X.
    destruct (iter_cut v kept (2 * len ds + 2) C ltac:(lia)) as [[G Y]|[_ Y]]; rewrite Y; cbn [bind]; [|apply rej_range].
    assert (Hh : 1 + 2 * len ds <= len kept) by lia. fold vv. rewrite (anc_make Hh). cbn [bind]. rewrite (anc_N Hh). cbn [bind].
    replace (Z.to_nat (len ds)) with (length ds) by (unfold len; lia). apply rej_bind. exact (anc_loop Hh).
  Qed.
End AnCut.
