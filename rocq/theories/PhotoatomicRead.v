(** PhotoatomicTable: what is written and what is read back. *)
From Coq Require Import ZArith Bool List Lia Ascii.
From Coq Require Import ZifyBool ZifyNat.
From Verif Require Import PropLemmasBasic.
From Verif Require Export PhotoatomicTable.
Import ListNotations.
Open Scope Z_scope.

(** * The electroionisation blocks *)

(** A block: its number of incident energies and its words *)
Notation eion_in := (Z * list double)%type (only parsing).
Definition ei_pos (from : Z) (is : list (Z * list double)) : list Z := starts from (map snd is).
Fixpoint ei_pos2 (from : Z) (is : list (Z * list double)) : list Z :=
  match is with [] => [] | (nb, w) :: r => (from + 3 * nb) :: ei_pos2 (from + len w) r end.
(** the words that start at XSS( pre + 1 ) *)
Definition ei_header (pre : Z) (is : list (Z * list double)) : list double :=
  let from := pre + 3 * len is + 1 in map dbl (map fst is) ++ map dbl (ei_pos from is) ++ map dbl (ei_pos2 from is).
Definition ei_all (pre : Z) (is : list (Z * list double)) : list double := ei_header pre is ++ concat (map snd is).
Definition ei_given (b : electronBlock) (i : Z * list double) : Prop := content (eb_v b) (snd i) /\ eb_N b = fst i /\ 0 <= fst i.

Lemma len_ei_pos2 from is : len (ei_pos2 from is) = len is.
Proof. revert from. induction is as [|[nb w] is IH]; intros from; [reflexivity|]. cbn [ei_pos2]. rewrite !len_cons, IH. reflexivity. Qed.
Lemma len_ei_pos from is : len (ei_pos from is) = len is.
Proof. unfold ei_pos, len. rewrite length_starts, map_length. reflexivity. Qed.
Lemma len_ei_header pre is : len (ei_header pre is) = 3 * len is.
Proof. unfold ei_header. rewrite !len_app, !len_map, len_ei_pos, len_ei_pos2. lia. Qed.

Lemma upd_at {A} (l1 : list A) y l2 x k : Z.of_nat k = len l1 -> upd k x (l1 ++ y :: l2) = Ok (l1 ++ x :: l2).
Proof. intros E. replace k with (length l1) by (unfold len in E; lia). apply upd_mid. Qed.

Lemma pa_write_eion_ok P n bs is : Forall2 ei_given bs is -> forall a b c dat,
  len b = len a -> len c = len a -> len a + len is = n -> len P + 3 * n + len dat + len (concat (map snd is)) < 2 ^ 31 -> Forall (fun i => fst i < 2 ^ 30) is ->
  let z := repeat (dbl 0) (length is) in let from := len P + 3 * n + len dat + 1 in
  pa_write_eion (len P + len a) n bs (P ++ a ++ z ++ b ++ z ++ c ++ z ++ dat)
  = Ok (P ++ (a ++ map dbl (map fst is)) ++ (b ++ map dbl (ei_pos from is)) ++ (c ++ map dbl (ei_pos2 from is)) ++ dat ++ concat (map snd is)).
Proof.
  induction 1 as [|bl [nb w] bs is (C & N & Hnb) F IH]; intros a b c dat Lb Lc Ln B Fn z from.
  - subst z. cbn [length repeat map ei_pos ei_pos2 starts concat pa_write_eion app]. unfold ei_pos. cbn [map starts]. rewrite !app_nil_r. reflexivity.
  - assert (Hfrom : from = len P + 3 * n + len dat + 1) by reflexivity. clearbody from. cbn [length map fst snd concat ei_pos2] in *. unfold ei_pos in *. cbn [map snd starts] in *. apply Forall_cons_iff in Fn as [Fn1 Fn2]. cbn [fst] in Fn1. subst n.
    repeat rewrite len_cons in *. rewrite len_app in B. subst z. cbn [repeat]. set (z := repeat (dbl 0) (length is)).
    assert (Lz : len z = len is) by (unfold z, len; rewrite repeat_length; reflexivity).
    pose proof (len_nonneg P). pose proof (len_nonneg a). pose proof (len_nonneg is). pose proof (len_nonneg dat). pose proof (len_nonneg w). pose proof (len_nonneg (concat (map snd is))).
    cbn [pa_write_eion]. rewrite N.
    cbn [app]. 
    replace (P ++ a ++ dbl 0 :: z ++ b ++ dbl 0 :: z ++ c ++ dbl 0 :: z ++ dat) with ((P ++ a) ++ dbl 0 :: (z ++ b ++ dbl 0 :: z ++ c ++ dbl 0 :: z ++ dat)) by (rewrite <- !app_assoc; reflexivity).
    rewrite (upd_at (P ++ a)) by (rewrite len_app; lia). cbn [bind].
    replace ((P ++ a) ++ dbl nb :: z ++ b ++ dbl 0 :: z ++ c ++ dbl 0 :: z ++ dat) with ((P ++ a ++ dbl nb :: z ++ b) ++ dbl 0 :: (z ++ c ++ dbl 0 :: z ++ dat))
      by (repeat rewrite <- ?app_assoc, <- ?app_comm_cons; reflexivity).
    match goal with |- context [dbl (u64 ?e)] => assert (E1 : u64 e = from) end.
    { repeat rewrite ?len_app, ?len_cons. rewrite u64_small by lia. lia. }
    rewrite E1. rewrite (upd_at (P ++ a ++ dbl nb :: z ++ b)) by (rewrite u32_small by lia; repeat rewrite ?len_app, ?len_cons; lia). cbn [bind].
    replace ((P ++ a ++ dbl nb :: z ++ b) ++ dbl from :: z ++ c ++ dbl 0 :: z ++ dat) with ((P ++ a ++ dbl nb :: z ++ b ++ dbl from :: z ++ c) ++ dbl 0 :: (z ++ dat))
      by (repeat rewrite <- ?app_assoc, <- ?app_comm_cons; reflexivity).
    match goal with |- context [dbl (u64 ?e)] => assert (E2 : u64 e = from + 3 * nb) end.
    { repeat rewrite ?len_app, ?len_cons. rewrite (u32_small (3 * nb)) by lia. rewrite u64_small by lia. lia. }
    rewrite E2. rewrite (upd_at (P ++ a ++ dbl nb :: z ++ b ++ dbl from :: z ++ c))
      by (rewrite (u32_small (2 * _)) by lia; rewrite u32_small by lia; repeat rewrite ?len_app, ?len_cons; lia). cbn [bind].
    rewrite (xss_all_content _ _ C). cbn [bind snd].
    specialize (IH (a ++ [dbl nb]) (b ++ [dbl from]) (c ++ [dbl (from + 3 * nb)]) (dat ++ w)). cbn zeta in IH.
    repeat rewrite len_app in IH. change (len [dbl nb]) with 1 in IH. change (len [dbl from]) with 1 in IH. change (len [dbl (from + 3 * nb)]) with 1 in IH.
    specialize (IH ltac:(lia) ltac:(lia) ltac:(lia) ltac:(lia) Fn2). fold z in IH.
    replace (len P + 3 * (len a + (1 + len is)) + (len dat + len w) + 1) with (from + len w) in IH by (lia).
    rewrite u32_small by lia. replace (len P + len a + 1) with (len P + (len a + 1)) by lia.
    repeat (rewrite <- !app_assoc in IH; cbn [app] in IH). repeat (rewrite <- ?app_assoc; cbn [app]). exact IH.
Qed.

Lemma pa_write_eion_all P bs is : Forall2 ei_given bs is -> len P + 3 * len is + len (concat (map snd is)) < 2 ^ 31 -> Forall (fun i => fst i < 2 ^ 30) is ->
  pa_write_eion (len P) (len is) bs (P ++ repeat (dbl 0) (Z.to_nat (3 * len is))) = Ok (P ++ ei_all (len P) is).
Proof.
  intros F B Fn. pose proof (pa_write_eion_ok P (len is) bs is F [] [] [] [] eq_refl eq_refl eq_refl) as H.
  change (len (@nil double)) with 0 in H. specialize (H ltac:(lia) Fn). cbn zeta in H. rewrite !Z.add_0_r in H. cbn [app] in H.
  replace (repeat (dbl 0) (Z.to_nat (3 * len is))) with (repeat (dbl 0) (length is) ++ repeat (dbl 0) (length is) ++ repeat (dbl 0) (length is)).
  2:{ rewrite <- !repeat_app. f_equal. unfold len. lia. }
  rewrite app_nil_r in H. rewrite H. f_equal. unfold ei_all, ei_header. cbn zeta. rewrite <- !app_assoc. reflexivity.
Qed.

(** * Blocks of the table *)

Lemma pa_block_next bm d k s e : nth_error (d_jxs d) k = Some s -> nth_error (d_jxs d) (S k) = Some e -> len (d_jxs d) = 32 -> 0 < s <= e -> e < 2 ^ 64 ->
  pa_block bm d (Z.of_nat k + 1) = Ok (s - 1, e - 1).
Proof.
  intros N1 N2 L H B. unfold pa_block, d_JXS. rewrite (fetch_in bm _ k s N1) by lia. cbn [bind]. rewrite u64_small by lia.
  replace (s =? 0) with false by lia. cbn [negb]. replace (Z.to_nat (Z.of_nat k + 1)) with (S k) by lia.
  destruct (nth_split_len _ _ _ N2) as (l1 & l2 & E & L1). rewrite E.
  rewrite skipn_app. rewrite (skipn_all2 l1) by lia. rewrite L1, Nat.sub_diag. cbn [skipn app]. rewrite jf_hit by lia.
  rewrite u64_small by lia. replace (e =? 0) with false by lia. reflexivity.
Qed.
Lemma pa_block_find bm d k s e : nth_error (d_jxs d) k = Some s -> len (d_jxs d) = 32 -> jxs_find s (skipn (S k) (d_jxs d)) = Some e -> 0 < s < 2 ^ 64 -> 0 < e < 2 ^ 64 ->
  pa_block bm d (Z.of_nat k + 1) = Ok (s - 1, e - 1).
Proof.
  intros N1 L F H B. unfold pa_block, d_JXS. rewrite (fetch_in bm _ k s N1) by lia. cbn [bind]. rewrite u64_small by lia.
  replace (s =? 0) with false by lia. cbn [negb]. replace (Z.to_nat (Z.of_nat k + 1)) with (S k) by lia. rewrite F.
  rewrite u64_small by lia. replace (e =? 0) with false by lia. reflexivity.
Qed.
Lemma pa_block_last bm d k s : nth_error (d_jxs d) k = Some s -> len (d_jxs d) = 32 -> jxs_find s (skipn (S k) (d_jxs d)) = None -> 0 < s < 2 ^ 64 ->
  pa_block bm d (Z.of_nat k + 1) = Ok (s - 1, len (d_xss d)).
Proof.
  intros N1 L F H. unfold pa_block, d_JXS. rewrite (fetch_in bm _ k s N1) by lia. cbn [bind]. rewrite u64_small by lia.
  replace (s =? 0) with false by lia. cbn [negb]. replace (Z.to_nat (Z.of_nat k + 1)) with (S k) by lia. rewrite F. reflexivity.
Qed.

Lemma piece d pre w post b e : d_xss d = pre ++ w ++ post -> len (d_xss d) < max_words -> b = len pre -> e = len pre + len w -> content (tview d b e) w.
Proof. intros X B Hb He. unfold tview. rewrite X in *. apply piece_content; assumption. Qed.

Definition opt_read {A} (w : list double) (S : A -> Prop) (make : view -> outcome A) (present : bool) (o : option A) : Prop :=
  if present then exists x, o = Some x /\ S x else o = None.

Lemma pa_basic_ok bm d w1 w2 w3 w4 w5 rest nes nflo S1 S2 S3 S4 S5 :
  d_xss d = w1 ++ w2 ++ w3 ++ w4 ++ w5 ++ rest -> len (d_xss d) < max_words -> pa_NES bm d = Ok nes -> pa_NFLO bm d = Ok nflo ->
  pa_block bm d 1 = Ok (0, len w1) -> pa_block bm d 2 = Ok (len w1, len w1 + len w2) -> pa_block bm d 3 = Ok (len w1 + len w2, len w1 + len w2 + len w3) ->
  (0 < nflo -> pa_block bm d 4 = Ok (len w1 + len w2 + len w3, len w1 + len w2 + len w3 + len w4)) ->
  pa_block bm d 5 = Ok (len w1 + len w2 + len w3 + len w4, len w1 + len w2 + len w3 + len w4 + len w5) ->
  readable (fun v => eg_make v nes) w1 S1 -> readable ji_make w2 S2 -> readable jc_make w3 S3 -> (0 < nflo -> readable (fun v => jf_make v nflo) w4 S4) ->
  readable (fun v => lq_make v nes) w5 S5 ->
  exists a b c f h, pa_basic bm d = Ok (a, b, c, f, h) /\ S1 a /\ S2 b /\ S3 c /\ S5 h /\ (if 0 <? nflo then exists x, f = Some x /\ S4 x else f = None).
Proof.
  intros X B N1 N2 B1 B2 B3 B4 B5 R1 R2 R3 R4 R5. unfold pa_basic. rewrite B1. cbn [bind fst snd]. rewrite N1. cbn [bind].
  destruct (R1 (tview d 0 (len w1))) as (a & Ea & Sa). { apply (piece d [] w1 (w2 ++ w3 ++ w4 ++ w5 ++ rest)); [exact X|exact B|reflexivity|rewrite len_nil; lia]. }
  rewrite Ea. cbn [bind]. rewrite B2. cbn [bind fst snd].
  destruct (R2 (tview d (len w1) (len w1 + len w2))) as (b & Eb & Sb). { apply (piece d w1 w2 (w3 ++ w4 ++ w5 ++ rest)); [exact X|exact B|reflexivity|lia]. }
  rewrite Eb. cbn [bind]. rewrite B3. cbn [bind fst snd].
  destruct (R3 (tview d (len w1 + len w2) (len w1 + len w2 + len w3))) as (c & Ec & Sc).
  { apply (piece d (w1 ++ w2) w3 (w4 ++ w5 ++ rest)); [rewrite <- app_assoc; exact X|exact B|rewrite len_app; lia..]. }
  rewrite Ec. cbn [bind]. rewrite N2. cbn [bind].
  assert (F : exists f, (if 0 <? nflo then b <- pa_block bm d 4 ;; o <- jf_make (tview d (fst b) (snd b)) nflo ;; Ok (Some o) else Ok None) = Ok f
    /\ (if 0 <? nflo then exists x, f = Some x /\ S4 x else f = None)).
  { destruct (0 <? nflo) eqn:E; [|exists None; auto]. rewrite B4 by lia. cbn [bind fst snd]. destruct (R4 ltac:(lia) (tview d (len w1 + len w2 + len w3) (len w1 + len w2 + len w3 + len w4))) as (f & Ef & Sf).
    { apply (piece d (w1 ++ w2 ++ w3) w4 (w5 ++ rest)); [rewrite <- !app_assoc; exact X|exact B|rewrite !len_app; lia..]. }
    rewrite Ef. cbn [bind]. exists (Some f). split; [reflexivity|]. exists f. auto. }
  destruct F as (f & Ef & Sf). rewrite Ef. cbn [bind]. rewrite B5. cbn [bind fst snd].
  destruct (R5 (tview d (len w1 + len w2 + len w3 + len w4) (len w1 + len w2 + len w3 + len w4 + len w5))) as (h & Eh & Sh).
  { apply (piece d (w1 ++ w2 ++ w3 ++ w4) w5 rest); [rewrite <- !app_assoc; exact X|exact B|rewrite !len_app; lia..]. }
  rewrite Eh. cbn [bind]. exists a, b, c, f, h. auto 8.
Qed.

Lemma pa_shells_ok bm d pre w6 w9 rest nsh S6 S9 x6 y8 x9 :
  d_xss d = pre ++ w6 ++ w9 ++ rest -> len (d_xss d) < max_words -> pa_NSH bm d = Ok nsh -> 0 < nsh ->
  pa_block bm d 6 = Ok (len pre, x6) -> pa_block bm d 8 = Ok (y8, len pre + len w6) -> pa_block bm d 9 = Ok (len pre + len w6, x9) ->
  pa_block bm d 10 = Ok (len pre + len w6 + nsh, len pre + len w6 + len w9) ->
  readable (fun v => ep_make v nsh) w6 S6 -> readable (fun v => bl_make bm (swd_gd bm) v (vbeg v + nsh) nsh true) w9 S9 ->
  exists a b, pa_shells bm d = Ok (Some (a, b)) /\ S6 a /\ S9 b.
Proof.
  intros X B N Hn B6 B8 B9 B10 R6 R9. unfold pa_shells. rewrite N. cbn [bind]. replace (0 <? nsh) with true by lia. rewrite B6. cbn [bind]. rewrite B8. cbn [bind fst snd].
  destruct (R6 (tview d (len pre) (len pre + len w6))) as (a & Ea & Sa). { apply (piece d pre w6 (w9 ++ rest)); [exact X|exact B|reflexivity|lia]. }
  rewrite Ea. cbn [bind]. rewrite B9. cbn [bind]. rewrite B10. cbn [bind fst snd].
  destruct (R9 (tview d (len pre + len w6) (len pre + len w6 + len w9))) as (b & Eb & Sb).
  { apply (piece d (pre ++ w6) w9 rest); [rewrite <- app_assoc; exact X|exact B|rewrite len_app; lia..]. }
  cbn [vbeg tview] in Eb. rewrite Eb. cbn [bind]. exists a, b. auto.
Qed.

Lemma starts_nth : forall ws from k w, nth_error ws k = Some w -> nth_error (starts from ws) k = Some (from + len (concat (firstn k ws))).
Proof.
  induction ws as [|w0 ws IH]; intros from [|k] w H; try discriminate; cbn [starts nth_error firstn concat].
  - rewrite len_nil. f_equal. lia.
  - rewrite (IH _ _ _ H), len_app. f_equal. lia.
Qed.

(** The blocks of subshell k + 1 *)
Lemma pa_eion_block_ok bm d P is rest k nb w j24 : d_xss d = P ++ ei_all (len P) is ++ rest -> len (d_xss d) < max_words ->
  d_JXS bm d 23 = Ok (len P + 1) -> pa_NSSH bm d = Ok (len is) -> d_JXS bm d 24 = Ok j24 -> j24 = len P + len (ei_all (len P) is) + 1 ->
  nth_error is k = Some (nb, w) -> 0 <= nb < 2 ^ 32 ->
  exists b e, pa_eion_block bm d (1 + Z.of_nat k) = Ok (b, e, nb) /\ content (tview d b e) w.
Proof.
  intros X B J23 N J24 -> Hk Hnb. pose proof (nth_error_len _ _ _ Hk) as Lk. assert (Hw : nth_error (map snd is) k = Some w) by (rewrite nth_error_map, Hk; reflexivity).
  pose proof (len_ei_header (len P) is) as Lh. unfold ei_all in *.
  assert (B2 : len P + 3 * len is + len (concat (map snd is)) + len rest < 2 ^ 31) by (rewrite X in B; unfold max_words in B; rewrite !len_app in B; lia).
  nonneg. pose proof (len_nonneg P). pose proof (len_nonneg rest). set (from := len P + 3 * len is + 1) in *.
  destruct (nth_split_len _ _ _ Hw) as (l1 & l2 & E12 & L1).
  assert (F1 : firstn k (map snd is) = l1) by (rewrite E12, firstn_app, <- L1, firstn_all, Nat.sub_diag; cbn [firstn]; apply app_nil_r).
  assert (Xh : d_xss d = P ++ map dbl (map fst is) ++ (map dbl (ei_pos from is) ++ map dbl (ei_pos2 from is) ++ concat (map snd is) ++ rest))
    by (rewrite X; unfold ei_header; fold from; rewrite <- !app_assoc; reflexivity).
  assert (D1 : deref (d_xss d) (len P + Z.of_nat k) = Ok (dbl nb)).
  { rewrite Xh. apply deref_app. rewrite !nth_error_map, Hk. reflexivity. }
  assert (D2 : forall k' w', nth_error (map snd is) k' = Some w' -> deref (d_xss d) (len P + len is + Z.of_nat k') = Ok (dbl (from + len (concat (firstn k' (map snd is)))))).
  { intros k' w' Hk'. replace (len P + len is) with (len (P ++ map dbl (map fst is))) by (rewrite len_app, !len_map; reflexivity). rewrite Xh.
    rewrite (app_assoc P). apply deref_app. rewrite nth_error_map. unfold ei_pos. rewrite (starts_nth _ _ _ _ Hk'). reflexivity. }
  assert (Lc : forall k', 0 <= len (concat (firstn k' (map snd is))) <= len (concat (map snd is))).
  { intros k'. rewrite <- (firstn_skipn k' (map snd is)) at 3. rewrite concat_app, len_app. pose proof (len_nonneg (concat (firstn k' (map snd is)))). pose proof (len_nonneg (concat (skipn k' (map snd is)))). lia. }
  unfold pa_eion_block. rewrite J23. cbn [bind]. rewrite N. cbn [bind].
  replace (len P + 1 + (1 + Z.of_nat k) - 2) with (len P + Z.of_nat k) by lia. rewrite D1. cbn [bind]. rewrite trunc_to_u32_dbl by lia. cbn [bind].
  replace (len P + 1 + len is + (1 + Z.of_nat k) - 2) with (len P + len is + Z.of_nat k) by lia. rewrite (D2 k w Hw). cbn [bind]. pose proof (Lc k).
  rewrite trunc_to_size_dbl by lia. cbn [bind].
  assert (E : (if negb (1 + Z.of_nat k =? len is) then x <- deref (d_xss d) (len P + 1 + len is + (1 + Z.of_nat k) - 1) ;; e <- trunc_to_size x ;; Ok (e - 1)
               else j <- d_JXS bm d 24 ;; Ok (j - 1)) = Ok (from - 1 + len (concat (firstn k (map snd is))) + len w)).
  { destruct (1 + Z.of_nat k =? len is) eqn:Ek; cbn [negb].
    - rewrite J24. cbn [bind]. f_equal. rewrite len_app, Lh. rewrite E12. rewrite firstn_app, <- L1, firstn_all, Nat.sub_diag. cbn [firstn]. rewrite app_nil_r.
      assert (l2 = []). { apply length_zero_iff_nil. apply (f_equal (@length _)) in E12. rewrite map_length, app_length in E12. cbn [length] in E12. unfold len in Ek. lia. }
      subst l2. rewrite concat_app, len_app. cbn [concat]. rewrite app_nil_r. lia.
    - destruct l2 as [|w2 l2].
      { apply (f_equal (@length _)) in E12. rewrite map_length, app_length in E12. cbn [length] in E12. unfold len in *. lia. }
      assert (Hw2 : nth_error (map snd is) (S k) = Some w2). { rewrite E12, <- L1. rewrite nth_error_app2 by lia. replace (S (length l1) - length l1)%nat with 1%nat by lia. reflexivity. }
      replace (len P + 1 + len is + (1 + Z.of_nat k) - 1) with (len P + len is + Z.of_nat (S k)) by lia. rewrite (D2 _ _ Hw2). cbn [bind]. pose proof (Lc (S k)).
      rewrite trunc_to_size_dbl by lia. cbn [bind]. f_equal.
      assert (F2 : firstn (S k) (map snd is) = l1 ++ [w]).
      { rewrite E12, <- L1. rewrite firstn_app. rewrite firstn_all2 by lia. replace (S (length l1) - length l1)%nat with 1%nat by lia. reflexivity. }
      rewrite F2, F1, concat_app, len_app. cbn [concat]. rewrite app_nil_r. lia. }
  rewrite E. cbn [bind]. do 2 eexists. split; [reflexivity|].
  assert (Xw : d_xss d = (P ++ ei_header (len P) is ++ concat l1) ++ w ++ (concat l2 ++ rest)).
  { rewrite X. rewrite E12 at 1. rewrite concat_app. cbn [concat]. rewrite <- !app_assoc. reflexivity. }
  apply (piece _ _ _ _ _ _ Xw B); rewrite !len_app, Lh, F1; lia.
Qed.

Lemma pa_eions_ok bm d P is rest j24 S : d_xss d = P ++ ei_all (len P) is ++ rest -> len (d_xss d) < max_words ->
  d_JXS bm d 23 = Ok (len P + 1) -> pa_NSSH bm d = Ok (len is) -> d_JXS bm d 24 = Ok j24 -> j24 = len P + len (ei_all (len P) is) + 1 ->
  (forall k i, nth_error is k = Some i -> 0 <= fst i < 2 ^ 32 /\ readable (fun v => eb_make bm v (fst i)) (snd i) (S k)) ->
  exists os, mapM (fun index => b <- pa_eion_block bm d index ;; let '(s, e, n) := b in eb_make bm (tview d s e) n) (seqZ 1 (Z.to_nat (len is))) = Ok os
    /\ length os = length is /\ forall k o, nth_error os k = Some o -> S k o.
Proof.
  intros X B J23 N J24 E24 H.
  destruct (mapM_seq (fun index => b <- pa_eion_block bm d index ;; let '(s, e, n) := b in eb_make bm (tview d s e) n) S (Z.to_nat (len is)) 1 0) as (os & E & L & R).
  - intros k Hk. destruct (nth_error is k) as [[nb w]|] eqn:Ek; [|apply nth_error_None in Ek; unfold len in Hk; lia].
    destruct (H _ _ Ek) as [Hnb R]. cbn [fst snd] in *. destruct (pa_eion_block_ok bm d P is rest k nb w j24 X B J23 N J24 E24 Ek Hnb) as (b & e & Eb & C).
    rewrite Eb. cbn [bind]. destruct (R _ C) as (o & Eo & So). exists o. auto.
  - exists os. split; [exact E|]. split; [unfold len in L; lia|]. intros k o Ho. exact (R k o Ho).
Qed.

(** Words of the electron blocks, in table order *)
Record pew := Pew { w_subsh : list double; w_sphel : list double; w_xprob : list double; w_esze : list double; w_excit : list double; w_elas : list double;
  w_eion : list (Z * list double); w_breme : list double; w_breml : list double; w_selas : option (list double) }.
Definition or_nil (o : option (list double)) : list double := match o with Some w => w | None => [] end.
(** The words before and after the electroionisation data *)
Definition pew_1 (w : pew) : list double := w_subsh w ++ w_sphel w ++ w_xprob w ++ w_esze w ++ w_excit w ++ w_elas w.
Definition pew_2 (w : pew) : list double := w_breme w ++ w_breml w ++ or_nil (w_selas w).
Definition pew_all (pre : Z) (w : pew) : list double := pew_1 w ++ ei_all (pre + len (pew_1 w)) (w_eion w) ++ pew_2 w.

Record pe_shape := PeShape { h_nepr : Z; h_nes : Z; h_nssh : Z; h_ne : Z; h_nxl : Z; h_na : Z; h_nb : Z; h_nbl : Z }.
Record pe_reads := PeReads { r_subsh : arrayData -> Prop; r_sphel : arrayData -> Prop; r_xprob : blockWithLocators arrayData -> Prop; r_esze : arrayData -> Prop;
  r_excit : arrayData -> Prop; r_elas : electronBlock -> Prop; r_eion : nat -> electronBlock -> Prop; r_breme : electronBlock -> Prop; r_breml : arrayData -> Prop; r_selas : arrayData -> Prop }.
Record pe_readable bm (w : pew) (h : pe_shape) (R : pe_reads) : Prop := {
  q_subsh : readable (fun v => ss_make v (h_nssh h)) (w_subsh w) (r_subsh R);
  q_sphel : readable (fun v => sp_make v (h_nssh h) (h_nes h)) (w_sphel w) (r_sphel R);
  q_xprob : readable (fun v => bl_make bm xp_gd v (vbeg v + h_nssh h) (h_nssh h) false) (w_xprob w) (r_xprob R);
  q_esze : readable (fun v => ez_make v (h_nssh h) (h_ne h)) (w_esze w) (r_esze R);
  q_excit : readable (fun v => two_make v (h_nxl h)) (w_excit w) (r_excit R);
  q_elas : readable (fun v => eb_make bm v (h_na h)) (w_elas w) (r_elas R);
  q_eion : forall k i, nth_error (w_eion w) k = Some i -> 0 <= fst i < 2 ^ 30 /\ readable (fun v => eb_make bm v (fst i)) (snd i) (r_eion R k);
  q_breme : readable (fun v => eb_make bm v (h_nb h)) (w_breme w) (r_breme R);
  q_breml : readable (fun v => two_make v (h_nbl h)) (w_breml w) (r_breml R);
  q_selas : forall x, w_selas w = Some x -> readable (fun v => two_make v (h_ne h)) x (r_selas R) }.
Record pe_result (w : pew) (R : pe_reads) (o : paElectrons) : Prop := {
  o_subsh : r_subsh R (pe_subsh o); o_sphel : r_sphel R (pe_sphel o); o_xprob : r_xprob R (pe_xprob o); o_esze : r_esze R (pe_esze o);
  o_excit : r_excit R (pe_excit o); o_elas : r_elas R (pe_elas o);
  o_eion : length (pe_eion o) = length (w_eion w) /\ forall k b, nth_error (pe_eion o) k = Some b -> r_eion R k b;
  o_breme : r_breme R (pe_breme o); o_breml : r_breml R (pe_breml o);
  o_selas : match w_selas w, pe_selas o with Some _, Some x => r_selas R x | None, None => True | _, _ => False end }.

(** The 17 locators JXS(11) to JXS(27) of electron data that start at XSS( pre + 1 ) *)
Definition pe_jxs (pre : Z) (w : pew) (h : pe_shape) : list Z :=
  let p11 := pre + 1 in
  let p16 := p11 + len (w_subsh w) in
  let p17 := p16 + len (w_sphel w) in
  let p19 := p17 + len (w_xprob w) in
  let p20 := p19 + len (w_esze w) in
  let p21 := p20 + len (w_excit w) in
  let p23 := p21 + len (w_elas w) in
  let p24 := p23 + 3 * len (w_eion w) + len (concat (map snd (w_eion w))) in
  let p26 := p24 + len (w_breme w) in
  let n := h_nssh h in
  [p11; p11 + n; p11 + 2 * n; p11 + 3 * n; p11 + 4 * n; p16; p17; p17 + n; p19; p20; p21; p21 + 3 * h_na h; p23; p24; p24 + 3 * h_nb h; p26;
   match w_selas w with Some _ => p26 + len (w_breml w) | None => 0 end].

Lemma jxs_tail start l : Forall (fun x => x = 0) l -> 0 < start < 2 ^ 64 -> jxs_find start l = None.
Proof. intros F B. apply jf_none; [|lia]. eapply Forall_impl; [|exact F]. cbv beta. intros; lia. Qed.

Lemma pa_electrons_ok bm d pre w h R j10 :
  d_xss d = pre ++ pew_all (len pre) w -> len (d_xss d) < max_words -> d_jxs d = j10 ++ pe_jxs (len pre) w h ++ zeros 5 -> len j10 = 10 ->
  pa_NEPR bm d = Ok (h_nepr h) -> h_nepr h = (match w_selas w with Some _ => 3 | None => 1 end) -> pa_NSSH bm d = Ok (h_nssh h) -> pa_NES bm d = Ok (h_nes h) ->
  pa_NE bm d = Ok (h_ne h) -> pa_NXL bm d = Ok (h_nxl h) -> pa_NA bm d = Ok (h_na h) -> pa_NB bm d = Ok (h_nb h) -> pa_NBL bm d = Ok (h_nbl h) ->
  h_nssh h = len (w_eion w) -> h_nssh h <= len (w_xprob w) -> 5 * h_nssh h <= len (w_subsh w) -> 0 <= h_na h -> 3 * h_na h <= len (w_elas w) -> 0 <= h_nb h -> 3 * h_nb h <= len (w_breme w) ->
  pe_readable bm w h R ->
  exists o, pa_electrons bm d = Ok (Some o) /\ pe_result w R o.
Proof.
  intros X B J L10 Nepr Enepr Nssh Nes Ne Nxl Na Nb Nbl Hssh Lxp Lss Ha1 Ha Hb1 Hb Q.
  assert (L32 : len (d_jxs d) = 32) by (rewrite J; repeat rewrite len_app; rewrite L10; reflexivity).
  assert (Jn : forall k x, nth_error (pe_jxs (len pre) w h) k = Some x -> nth_error (d_jxs d) (10 + k) = Some x).
  { intros k x Hk. rewrite J. rewrite nth_error_app2 by (unfold len in L10; lia). replace (10 + k - length j10)%nat with k by (unfold len in L10; lia).
    rewrite nth_error_app1; [exact Hk|]. apply nth_error_Some. congruence. }
  assert (Js : forall k, skipn (10 + k) (d_jxs d) = skipn k (pe_jxs (len pre) w h ++ zeros 5)).
  { intros k. rewrite J. rewrite skipn_app. rewrite skipn_all2 by (unfold len in L10; lia). cbn [app]. f_equal. unfold len in L10. lia. }
  clear J. unfold pew_all in X. set (P := pre ++ pew_1 w). assert (LP : len P = len pre + len (pew_1 w)) by (unfold P; apply len_app).
  rewrite <- LP in X. assert (XP : d_xss d = P ++ ei_all (len P) (w_eion w) ++ pew_2 w) by (rewrite X; unfold P; rewrite <- app_assoc; reflexivity).
  assert (L1 : len (pew_1 w) = len (w_subsh w) + len (w_sphel w) + len (w_xprob w) + len (w_esze w) + len (w_excit w) + len (w_elas w)) by (unfold pew_1; repeat rewrite len_app; lia).
  assert (Lei : len (ei_all (len P) (w_eion w)) = 3 * len (w_eion w) + len (concat (map snd (w_eion w)))) by (unfold ei_all; rewrite len_app, len_ei_header; reflexivity).
  assert (L2 : len (pew_2 w) = len (w_breme w) + len (w_breml w) + len (or_nil (w_selas w))) by (unfold pew_2; repeat rewrite len_app; lia).
  assert (LX : len (d_xss d) = len P + len (ei_all (len P) (w_eion w)) + len (pew_2 w)) by (rewrite XP; repeat rewrite len_app; lia).
  assert (Bx : len (d_xss d) < 2 ^ 31) by (unfold max_words in B; exact B).
  pose proof (len_nonneg pre) as G0. pose proof (len_nonneg (w_subsh w)) as G1. pose proof (len_nonneg (w_sphel w)) as G2. pose proof (len_nonneg (w_xprob w)) as G3. pose proof (len_nonneg (w_esze w)) as G4.
  pose proof (len_nonneg (w_excit w)) as G5. pose proof (len_nonneg (w_elas w)) as G6. pose proof (len_nonneg (concat (map snd (w_eion w)))) as G7. pose proof (len_nonneg (w_eion w)) as G8.
  pose proof (len_nonneg (w_breme w)) as G9. pose proof (len_nonneg (w_breml w)) as G10. pose proof (len_nonneg (or_nil (w_selas w))) as G11.
  assert (BL : forall k s e, nth_error (pe_jxs (len pre) w h) k = Some s -> nth_error (pe_jxs (len pre) w h) (S k) = Some e -> 0 < s <= e -> e < 2 ^ 64 -> pa_block bm d (Z.of_nat (10 + k) + 1) = Ok (s - 1, e - 1)).
  { intros k s e H1 H2 H3 H4. apply pa_block_next; [apply Jn; exact H1|replace (S (10 + k)) with (10 + S k)%nat by lia; apply Jn; exact H2|exact L32|exact H3|exact H4]. }
  assert (B11 := BL 0%nat _ _ eq_refl eq_refl ltac:(lia) ltac:(lia)). assert (B16 := BL 5%nat _ _ eq_refl eq_refl ltac:(lia) ltac:(lia)).
  assert (B17 := BL 6%nat _ _ eq_refl eq_refl ltac:(lia) ltac:(lia)). assert (B18 := BL 7%nat _ _ eq_refl eq_refl ltac:(lia) ltac:(lia)).
  assert (B19 := BL 8%nat _ _ eq_refl eq_refl ltac:(lia) ltac:(lia)). assert (B20 := BL 9%nat _ _ eq_refl eq_refl ltac:(lia) ltac:(lia)).
  assert (B21 := BL 10%nat _ _ eq_refl eq_refl ltac:(lia) ltac:(lia)). assert (B22 := BL 11%nat _ _ eq_refl eq_refl ltac:(lia) ltac:(lia)).
  assert (B24 := BL 13%nat _ _ eq_refl eq_refl ltac:(lia) ltac:(lia)). assert (B25 := BL 14%nat _ _ eq_refl eq_refl ltac:(lia) ltac:(lia)).
  assert (J23 := fetch_in bm _ _ _ (Jn 12%nat _ eq_refl) ltac:(lia)). assert (J24 := fetch_in bm _ _ _ (Jn 13%nat _ eq_refl) ltac:(lia)).
  change (Z.of_nat (10 + 0) + 1) with 11 in B11. change (Z.of_nat (10 + 5) + 1) with 16 in B16. change (Z.of_nat (10 + 6) + 1) with 17 in B17. change (Z.of_nat (10 + 7) + 1) with 18 in B18.
  change (Z.of_nat (10 + 8) + 1) with 19 in B19. change (Z.of_nat (10 + 9) + 1) with 20 in B20. change (Z.of_nat (10 + 10) + 1) with 21 in B21. change (Z.of_nat (10 + 11) + 1) with 22 in B22.
  change (Z.of_nat (10 + 13) + 1) with 24 in B24. change (Z.of_nat (10 + 14) + 1) with 25 in B25. change (Z.of_nat (10 + 12) + 1) with 23 in J23. change (Z.of_nat (10 + 13) + 1) with 24 in J24.
  assert (B26 : exists x, pa_block bm d 26 = Ok (len P + len (ei_all (len P) (w_eion w)) + len (w_breme w), x) /\ x = len P + len (ei_all (len P) (w_eion w)) + len (w_breme w) + len (w_breml w)).
  { destruct (w_selas w) as [sl|] eqn:Es.
    - pose proof (BL 15%nat) as B26. cbn [pe_jxs nth_error] in B26. rewrite Es in B26. specialize (B26 _ _ eq_refl eq_refl ltac:(lia) ltac:(lia)). change (Z.of_nat (10 + 15) + 1) with 26 in B26.
      eexists. rewrite B26. split; [do 2 f_equal; lia|]. lia.
    - exists (len (d_xss d)). split; [|cbn [or_nil] in *; rewrite len_nil in L2; lia].
      change 26 with (Z.of_nat (10 + 15) + 1). rewrite (pa_block_last bm d (10 + 15) _ (Jn 15%nat _ eq_refl) L32); [do 2 f_equal; lia| |lia].
      change (S (10 + 15)) with (10 + 16)%nat. rewrite Js. cbn [pe_jxs skipn app]. rewrite Es. apply jxs_tail; [repeat constructor|lia]. }
  destruct B26 as (x26 & B26 & Ex26).
  unfold pa_electrons. rewrite Nepr. cbn [bind]. replace (0 <? h_nepr h) with true by (destruct (w_selas w); lia). rewrite Nssh. cbn [bind]. rewrite Nes. cbn [bind].
  rewrite B11. cbn [bind]. rewrite B16. cbn [bind fst snd].
  destruct (q_subsh _ _ _ _ Q (tview d (len pre + 1 - 1) (len pre + 1 + len (w_subsh w) - 1))) as (o1 & E1 & S1).
  { eapply (piece d pre (w_subsh w)); [rewrite XP; unfold P, pew_1; rewrite <- !app_assoc; reflexivity|exact B|lia|lia]. }
  rewrite E1. cbn [bind].
  destruct (q_sphel _ _ _ _ Q (tview d (len pre + 1 + len (w_subsh w) - 1) (len pre + 1 + len (w_subsh w) + len (w_sphel w) - 1))) as (o2 & E2 & S2).
  { eapply (piece d (pre ++ w_subsh w) (w_sphel w)); [rewrite XP; unfold P, pew_1; rewrite <- !app_assoc; reflexivity|exact B|repeat rewrite len_app; lia..]. }
  rewrite E2. cbn [bind]. rewrite B17. cbn [bind]. rewrite B18. cbn [bind fst snd].
  destruct (q_xprob _ _ _ _ Q (tview d (len pre + 1 + len (w_subsh w) + len (w_sphel w) - 1) (len pre + 1 + len (w_subsh w) + len (w_sphel w) + len (w_xprob w) - 1))) as (o3 & E3 & S3).
  { eapply (piece d (pre ++ w_subsh w ++ w_sphel w) (w_xprob w)); [rewrite XP; unfold P, pew_1; rewrite <- !app_assoc; reflexivity|exact B|repeat rewrite len_app; lia..]. }
  cbn [vbeg tview] in E3.
  replace (len pre + 1 + len (w_subsh w) + len (w_sphel w) - 1 + h_nssh h) with (len pre + 1 + len (w_subsh w) + len (w_sphel w) + h_nssh h - 1) in E3 by lia. rewrite E3. cbn [bind].
  rewrite B19. cbn [bind fst snd]. rewrite Ne. cbn [bind].
  match goal with |- context [ez_make (tview d ?a ?b)] => destruct (q_esze _ _ _ _ Q (tview d a b)) as (o4 & E4 & S4) end.
  { eapply (piece d (pre ++ w_subsh w ++ w_sphel w ++ w_xprob w) (w_esze w)); [rewrite XP; unfold P, pew_1; rewrite <- !app_assoc; reflexivity|exact B|repeat rewrite len_app; lia..]. }
  rewrite E4. cbn [bind]. rewrite B20. cbn [bind fst snd]. rewrite Nxl. cbn [bind].
  match goal with |- context [two_make (tview d ?a ?b) (h_nxl h)] => destruct (q_excit _ _ _ _ Q (tview d a b)) as (o5 & E5 & S5) end.
  { eapply (piece d (pre ++ w_subsh w ++ w_sphel w ++ w_xprob w ++ w_esze w) (w_excit w)); [rewrite XP; unfold P, pew_1; rewrite <- !app_assoc; reflexivity|exact B|repeat rewrite len_app; lia..]. }
  rewrite E5. cbn [bind]. rewrite B21. cbn [bind]. rewrite B22. cbn [bind fst snd]. rewrite Na. cbn [bind].
  match goal with |- context [eb_make bm (tview d ?a ?b) (h_na h)] => destruct (q_elas _ _ _ _ Q (tview d a b)) as (o6 & E6 & S6) end.
  { eapply (piece d (pre ++ w_subsh w ++ w_sphel w ++ w_xprob w ++ w_esze w ++ w_excit w) (w_elas w)); [rewrite XP; unfold P, pew_1; rewrite <- !app_assoc; reflexivity|exact B|repeat rewrite len_app; lia..]. }
  rewrite E6. cbn [bind].
  destruct (pa_eions_ok bm d P (w_eion w) (pew_2 w) (len pre + 1 + len (w_subsh w) + len (w_sphel w) + len (w_xprob w) + len (w_esze w) + len (w_excit w) + len (w_elas w) + 3 * len (w_eion w) + len (concat (map snd (w_eion w)))) (r_eion R) XP B) as (o7 & E7 & L7 & S7).
  { unfold d_JXS. rewrite J23. f_equal. lia. }
  { rewrite Nssh, Hssh. reflexivity. }
  { unfold d_JXS. exact J24. }
  { rewrite Lei. lia. }
  { intros k i Hk. destruct (q_eion _ _ _ _ Q k i Hk) as [H1 H2]. split; [lia|exact H2]. }
  rewrite <- Hssh in E7. rewrite E7. cbn [bind]. rewrite B24. cbn [bind]. rewrite B25. cbn [bind fst snd]. rewrite Nb. cbn [bind].
  match goal with |- context [eb_make bm (tview d ?a ?b) (h_nb h)] => destruct (q_breme _ _ _ _ Q (tview d a b)) as (o8 & E8 & S8) end.
  { eapply (piece d (P ++ ei_all (len P) (w_eion w)) (w_breme w)); [rewrite XP; unfold pew_2; rewrite <- !app_assoc; reflexivity|exact B|repeat rewrite len_app; lia..]. }
  rewrite E8. cbn [bind]. rewrite B26. cbn [bind fst snd]. rewrite Nbl. cbn [bind].
  match goal with |- context [two_make (tview d ?a ?b) (h_nbl h)] => destruct (q_breml _ _ _ _ Q (tview d a b)) as (o9 & E9 & S9) end.
  { eapply (piece d (P ++ ei_all (len P) (w_eion w) ++ w_breme w) (w_breml w)); [rewrite XP; unfold pew_2; rewrite <- !app_assoc; reflexivity|exact B|repeat rewrite len_app; lia..]. }
  rewrite E9. cbn [bind]. clear BL.
  destruct (w_selas w) as [sl|] eqn:Es; rewrite Enepr.
  - change (3 =? 3) with true. cbn iota.
    assert (B27 : pa_block bm d 27 = Ok (len P + len (ei_all (len P) (w_eion w)) + len (w_breme w) + len (w_breml w), len (d_xss d))).
    { change 27 with (Z.of_nat (10 + 16) + 1). pose proof (Jn 16%nat) as J27. cbn [pe_jxs nth_error] in J27. rewrite Es in J27. rewrite (pa_block_last bm d (10 + 16) _ (J27 _ eq_refl) L32); [do 2 f_equal; lia| |lia].
      change (S (10 + 16)) with (10 + 17)%nat. rewrite Js. cbn [pe_jxs skipn app]. apply jxs_tail; [repeat constructor|lia]. }
    rewrite B27. cbn [bind fst snd]. cbn [or_nil] in *.
    match goal with |- context [two_make (tview d ?a ?b) (h_ne h)] => destruct (q_selas _ _ _ _ Q sl Es (tview d a b)) as (o10 & E10 & S10) end.
    { eapply (piece d (P ++ ei_all (len P) (w_eion w) ++ w_breme w ++ w_breml w) sl []); [rewrite XP; unfold pew_2; rewrite Es, app_nil_r; cbn [or_nil]; rewrite <- !app_assoc; reflexivity|exact B|repeat rewrite len_app; lia..]. }
    rewrite E10. cbn [bind]. eexists. split; [reflexivity|]. constructor; cbn [pe_subsh pe_sphel pe_xprob pe_esze pe_excit pe_elas pe_eion pe_breme pe_breml pe_selas]; auto. rewrite Es. exact S10.
  - change (1 =? 3) with false. cbn [bind]. eexists. split; [reflexivity|]. constructor; cbn [pe_subsh pe_sphel pe_xprob pe_esze pe_excit pe_elas pe_eion pe_breme pe_breml pe_selas]; auto. rewrite Es. exact I.
Qed.
