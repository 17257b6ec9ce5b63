(** Reading back printed tables: lemmas. *)
From Coq Require Import String.
From Coq Require Import ZArith Bool List Lia Ascii.
From Coq Require Import ZifyBool ZifyNat.
From Verif Require Import Base SZA BlockWithLocators Angular.
From Verif Require Export TextFacts TableText.
Import ListNotations.
Open Scope Z_scope.

(** * Lists *)
Lemma seqZ_fetch {A} bm (s : list A) n : forall a, (a + n <= length s)%nat -> len s < 2 ^ 63 ->
  mapM (fetch bm s) (seqZ (Z.of_nat a + 1) n) = Ok (firstn n (skipn a s)).
Proof.
  induction n as [|n IH]; intros a L B; cbn [seqZ mapM]; [reflexivity|].
  destruct (nth_error s a) as [x|] eqn:E; [|apply nth_error_None in E; lia].
  rewrite (fetch_in bm s a x E B). cbn [bind]. replace (Z.of_nat a + 1 + 1) with (Z.of_nat (S a) + 1) by lia. rewrite IH by lia. cbn [bind].
  f_equal. apply nth_error_split in E as (l1 & l2 & -> & E). subst a.
  assert (K : forall (u v : list A), skipn (length u) (u ++ v) = v) by (intros u v; rewrite skipn_app, skipn_all, Nat.sub_diag; reflexivity).
  rewrite K. cbn [firstn]. f_equal.
  replace (l1 ++ x :: l2) with ((l1 ++ [x]) ++ l2) by (rewrite <- app_assoc; reflexivity).
  replace (S (length l1)) with (length (l1 ++ [x])) by (rewrite app_length; cbn; lia). rewrite K. reflexivity.
Qed.
Lemma seqZ_pair bm d n : forall a, (a + n <= length (d_iz d))%nat -> (a + n <= length (d_aw d))%nat -> len (d_iz d) < 2 ^ 63 -> len (d_aw d) < 2 ^ 63 ->
  mapM (pair_at bm d) (seqZ (Z.of_nat a + 1) n) = Ok (firstn n (skipn a (combine (d_iz d) (d_aw d)))).
Proof.
  intros a L1 L2 B1 B2.
  assert (C : length (combine (d_iz d) (d_aw d)) = Nat.min (length (d_iz d)) (length (d_aw d))) by apply combine_length.
  assert (G : forall m, (m < length (d_iz d))%nat -> (m < length (d_aw d))%nat -> pair_at bm d (Z.of_nat m + 1) = fetch bm (combine (d_iz d) (d_aw d)) (Z.of_nat m + 1)).
  { intros m M1 M2. unfold pair_at, d_IZ, d_AW. destruct (nth_error (d_iz d) m) as [x|] eqn:E1; [|apply nth_error_None in E1; lia].
    destruct (nth_error (d_aw d) m) as [y|] eqn:E2; [|apply nth_error_None in E2; lia].
    rewrite (fetch_in bm _ m x E1 B1), (fetch_in bm _ m y E2 B2). cbn [bind]. symmetry. apply fetch_in; [|unfold len in *; rewrite C; lia].
    clear -E1 E2. revert E1 E2. generalize (d_iz d), (d_aw d). induction m as [|m IH]; intros l1 l2 E1 E2; destruct l1, l2; try discriminate; cbn in *; [congruence|auto]. }
  rewrite <- (seqZ_fetch bm (combine (d_iz d) (d_aw d)) n a) by (unfold len in *; rewrite ?C; lia).
  clear C B1 B2. revert a L1 L2. induction n as [|n IH]; intros a L1 L2; cbn [seqZ mapM]; [reflexivity|]. rewrite G by lia.
  replace (Z.of_nat a + 1 + 1) with (Z.of_nat (S a) + 1) by lia. rewrite IH by lia. reflexivity.
Qed.
Definition sl {A} (a n : nat) (l : list A) : list A := firstn n (skipn a l).
Lemma sl_app {A} a n m (l : list A) : sl a n l ++ sl (a + n) m l = sl a (n + m) l.
Proof.
  unfold sl. replace (skipn (a + n) l) with (skipn n (skipn a l)).
  2:{ revert l. induction a as [|a IH]; intros l; [reflexivity|]. destruct l; cbn [Nat.add skipn]; [apply skipn_nil|apply IH]. }
  generalize (skipn a l) as m0. clear l. intros l.
  revert l. induction n as [|n IH]; intros l; [reflexivity|]. destruct l as [|x l]; [cbn [skipn]; rewrite !firstn_nil; reflexivity|].
  cbn [firstn skipn Nat.add app]. rewrite <- (IH l). reflexivity.
Qed.
Lemma sl_all {A} n (l : list A) : length l = n -> sl 0 n l = l.
Proof. intros <-. unfold sl. cbn [skipn]. apply firstn_all. Qed.
Lemma sl_length {A} a n (l : list A) : (a + n <= length l)%nat -> length (sl a n l) = n.
Proof. intros H. unfold sl. rewrite firstn_length, skipn_length. lia. Qed.
Lemma sl_Forall {A} (P : A -> Prop) a n l : Forall P l -> Forall P (sl a n l).
Proof. intros H. unfold sl. rewrite <- (firstn_skipn a l) in H. apply Forall_app in H as [_ H]. rewrite <- (firstn_skipn n (skipn a l)) in H. apply Forall_app in H as [H _]. exact H. Qed.
Lemma sl_Forall2 {A B} (P : A -> B -> Prop) a n : forall l l', Forall2 P l l' -> Forall2 P (sl a n l) (sl a n l').
Proof.
  assert (F : forall k l l', Forall2 P l l' -> Forall2 P (firstn k l) (firstn k l')).
  { intros k l l' H. revert k. induction H; intros [|k]; cbn [firstn]; constructor; auto. }
  assert (S : forall k l l', Forall2 P l l' -> Forall2 P (skipn k l) (skipn k l')).
  { intros k l l' H. revert k. induction H; intros [|k]; cbn [skipn]; auto; constructor; auto. }
  intros l l' H. unfold sl. auto.
Qed.

(** * Lines of numbers *)
Lemma r_eol_nl r : r_eol (nl :: r) = r.
Proof. reflexivity. Qed.

Definition fits (w : nat) (t : text) : Prop := (length t <= w)%nat.

Lemma read_ints_w w l r : Forall (fun n => fits w (show_Z n)) l -> read_ints w (length l) (concat (map (w_int w) l) ++ r) = Ok (l, r).
Proof.
  induction 1 as [|n l Hn _ IH]; cbn [length read_ints map concat]; [reflexivity|]. rewrite <- app_assoc, r_int_w by exact Hn.
  cbn [bind snd fst]. rewrite IH. reflexivity.
Qed.
Lemma parse_int_lines_w chunks r : Forall (fun l => length l = 8%nat /\ Forall (fun n => fits 9 (show_Z n)) l) chunks ->
  parse_int_lines (length chunks) (concat (map (int_record 9) chunks) ++ r) = Ok (concat chunks, r).
Proof.
  induction 1 as [|l chunks [L Hl] _ IH]; cbn [length parse_int_lines map concat]; [reflexivity|].
  unfold int_record at 1. rewrite <- !app_assoc. pose proof (read_ints_w 9 l ([nl] ++ concat (map (int_record 9) chunks) ++ r) Hl) as R. rewrite L in R.
  rewrite R. cbn [bind snd fst]. cbn [app]. rewrite r_eol_nl. rewrite IH. reflexivity.
Qed.
Definition pair_ok (rd : text -> option double) (x : Z * double) (y : double) : Prop :=
  fits 7 (show_Z (fst x)) /\ fits 11 (show_fixed 7 (snd x)) /\ rd (show_fixed 7 (snd x)) = Some y.
Lemma read_pairs_w rd l ys r : Forall2 (pair_ok rd) l ys ->
  read_pairs rd (length l) (concat (map (fun x => w_int 7 (fst x) ++ w_fix 11 7 (snd x)) l) ++ r) = Ok (map fst l, ys, r).
Proof.
  induction 1 as [|[n x] y l ys (H1 & H2 & H3) _ IH]; cbn [length read_pairs map concat fst snd]; [reflexivity|]. cbn [fst snd] in *.
  rewrite <- !app_assoc, r_int_w by exact H1. cbn [bind snd fst]. unfold w_fix at 1. rewrite (r_real_w rd 11 _ y) by (try apply show_fixed_word; assumption).
  cbn [bind snd fst]. rewrite IH. reflexivity.
Qed.
Lemma parse_izaw_lines_w rd chunks yss r : Forall2 (fun l ys => length l = 4%nat /\ Forall2 (pair_ok rd) l ys) chunks yss ->
  parse_izaw_lines rd (length chunks) (concat (map izaw_record chunks) ++ r) = Ok (map fst (concat chunks), concat yss, r).
Proof.
  induction 1 as [|l ys chunks yss [L Hl] _ IH]; cbn [length parse_izaw_lines map concat]; [reflexivity|].
  unfold izaw_record at 1. rewrite <- !app_assoc. pose proof (read_pairs_w rd l ys ([nl] ++ concat (map izaw_record chunks) ++ r) Hl) as R. rewrite L in R.
  rewrite R. cbn [bind snd fst]. cbn [app]. rewrite r_eol_nl. rewrite IH. cbn [bind fst snd]. rewrite map_app. reflexivity.
Qed.

(** * XSS *)
Definition real_ok (rd : text -> option double) (x y : double) : Prop := fits 20 (show_sci "E" 12 x) /\ rd (show_sci "E" 12 x) = Some y.
Lemma r_real_sci rd x y r : real_ok rd x y -> r_real rd 20 (w_sci 20 12 x ++ r) = Ok (y, r).
Proof. intros [L E]. unfold w_sci. apply r_real_w; [exact L|apply show_sci_word; reflexivity|exact E]. Qed.
Lemma xss_lines rd n : forall l l', Forall2 (real_ok rd) l l' -> (4 * n <= length l)%nat ->
  exists t, print_xss_lines n l = Ok (t, skipn (4 * n) l) /\ forall r, parse_xss_lines rd n (t ++ r) = Ok (firstn (4 * n) l', r).
Proof.
  induction n as [|n IH]; intros l l' H L; cbn [print_xss_lines parse_xss_lines]; [exists []; split; [reflexivity|intros r; reflexivity]|].
  destruct H as [|a a' l l' Ha H]; [cbn in L; lia|]. destruct H as [|b b' l l' Hb H]; [cbn in L; lia|]. destruct H as [|c c' l l' Hc H]; [cbn in L; lia|]. destruct H as [|d d' l l' Hd H]; [cbn in L; lia|].
  cbn [length] in L. destruct (IH l l' H ltac:(lia)) as (t & P & Q). rewrite P. cbn [bind fst snd]. eexists. split.
  - replace (4 * S n)%nat with (S (S (S (S (4 * n))))) by lia. cbn [skipn]. reflexivity.
  - intros r. rewrite <- !app_assoc. cbn [read_reals]. rewrite (r_real_sci rd _ _ _ Ha). cbn [bind fst snd]. rewrite (r_real_sci rd _ _ _ Hb). cbn [bind fst snd].
    rewrite (r_real_sci rd _ _ _ Hc). cbn [bind fst snd]. rewrite (r_real_sci rd _ _ _ Hd). cbn [bind fst snd app]. rewrite r_eol_nl. rewrite Q. cbn [bind fst snd app].
    replace (4 * S n)%nat with (S (S (S (S (4 * n))))) by lia. reflexivity.
Qed.
Lemma xss_rest rd n : forall l l', Forall2 (real_ok rd) l l' -> (n <= length l)%nat ->
  exists t, print_xss_rest n l = Ok t /\ forall r, read_reals rd 20 n (t ++ r) = Ok (firstn n l', r).
Proof.
  induction n as [|n IH]; intros l l' H L; cbn [print_xss_rest read_reals]; [exists []; split; [reflexivity|intros r; reflexivity]|].
  destruct H as [|a a' l l' Ha H]; [cbn in L; lia|]. cbn [length] in L. destruct (IH l l' H ltac:(lia)) as (t & P & Q). rewrite P. cbn [bind]. eexists. split; [reflexivity|].
  intros r. rewrite <- app_assoc, (r_real_sci rd _ _ _ Ha). cbn [bind fst snd]. rewrite Q. reflexivity.
Qed.
Lemma xss_round_trip rd l l' : Forall2 (real_ok rd) l l' ->
  exists t, print_xss l = Ok t /\ forall r, parse_xss rd (len l) (t ++ r) = Ok (l', r).
Proof.
  intros H. pose proof (Forall2_len _ _ _ H) as LL. unfold print_xss, parse_xss. set (n := length l) in *.
  pose proof (Nat.div_mod n 4 ltac:(lia)) as DM. pose proof (Nat.mod_upper_bound n 4 ltac:(lia)) as MB.
  destruct (xss_lines rd (n / 4) l l' H ltac:(unfold n in *; lia)) as (t & P & Q). rewrite P. cbn [bind fst snd].
  assert (Hn : Z.to_nat (len l) = n) by (unfold len, n; lia).
  assert (Hneg : (len l <? 0) = false) by (pose proof (len_nonneg l); lia).
  destruct (n mod 4)%nat as [|k] eqn:Ek.
  - exists t. split; [reflexivity|]. intros r. rewrite Hneg, Hn. cbn [throw_if bind]. rewrite Q. cbn [bind]. rewrite Ek.
    rewrite firstn_all2 by lia. reflexivity.
  - assert (H2 : Forall2 (real_ok rd) (skipn (4 * (n / 4)) l) (skipn (4 * (n / 4)) l')).
    { clear -H. set (m := (4 * (n / 4))%nat). clearbody m. revert m. induction H; intros [|m]; cbn [skipn]; auto; constructor; auto. }
    destruct (xss_rest rd (S k) _ _ H2 ltac:(rewrite skipn_length; fold n; lia)) as (t2 & P2 & Q2). rewrite P2. cbn [bind].
    eexists. split; [reflexivity|]. intros r. rewrite Hneg, Hn. cbn [throw_if bind]. rewrite <- !app_assoc, Q. cbn [bind fst snd]. rewrite Ek.
    rewrite Q2. cbn [bind fst snd app]. rewrite r_eol_nl.
    rewrite (firstn_all2 (n := S k)) by (rewrite skipn_length; lia). rewrite firstn_skipn. reflexivity.
Qed.
