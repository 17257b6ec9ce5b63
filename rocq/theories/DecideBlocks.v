(** Lemmas for C50, continued: blocks of angular distributions. *)
From Coq Require Import ZArith Bool List Lia.
From Coq Require Import ZifyBool ZifyNat.
From Verif Require Import PropLemmasBasic Truncated NuBlock AtomicBlocks ElectronBlocks ThermalBlocks Accepted Decide PropsDecide DecideMore AngularBlock.
Import ListNotations.
Open Scope Z_scope.

(** ** Specification *)

(** The block has [n] locators and its data begin behind [k] words.  The locators are there; the angular data of each positive
    locator start and end inside the range and are acceptable. *)
Definition and_fits (v : view) (n k : Z) (loc ne : Z -> Z) (aloc cnt : Z -> Z -> Z) : Prop :=
  let start j := k + loc j in
  n <= k /\ n <= size v
  /\ forall j, 1 <= j <= n -> 0 < loc j ->
       start j <= size v + 1 /\ stop v n start j <= size v + 1 /\ angular_fits (part v n start j) (ne j) (loc j) (aloc j) (cnt j).
(** What an entry shows: 0 is isotropic, -1 given elsewhere. *)
Definition and_shows bm (loc ne : Z) (aloc cnt : Z -> Z) (d : adist angularData) : Prop :=
  if loc =? 0 then d = DIso else if loc <? 0 then d = DElse
  else exists a, d = DData a /\ an_NE bm a = Ok ne /\ forall i, 1 <= i <= ne -> exists q, an_datum bm a i = Ok q /\ angular_shows bm (aloc i) (cnt i) q.

(** ** Proof *)

Lemma angular_fits_dec v ne locb loc cnt : angular_fits v ne locb loc cnt \/ ~ angular_fits v ne locb loc cnt.
Proof.
  unfold angular_fits. set (start := fun i => angular_start locb (loc i)). destruct (Z.leb_spec (1 + 2 * ne) (size v)) as [L|L]; [|right; lia].
  destruct (all_dec (fun i => loc i <> 0 -> 1 <= start i <= size v + 1 /\ stop v ne start i <= size v + 1 /\ angular_words (loc i) (cnt i) <= size (part v ne start i)) ne) as [A|A]; [intros i _; lia| |].
  - left. auto.
  - right. intros [_ F]. exact (A F).
Qed.

Lemma mapM_map {A B C} (f : B -> outcome C) (g : A -> B) l : mapM f (map g l) = mapM (fun x => f (g x)) l.
Proof. induction l as [|y l IH]; [reflexivity|]. cbn [map mapM]. rewrite IH. reflexivity. Qed.
Section And.
  Context (v : view) (nr k : Z) (zero : bool) (loc ne : Z -> Z) (aloc cnt : Z -> Z -> Z).
  Let z : Z := if zero then 1 else 0.
  Let n : Z := nr + z.
  Let rel (j : Z) : Z := k + loc j.
  Hypothesis I : inside v.
  Hypothesis Hn : 0 <= nr < 2 ^ 29.
  Hypothesis Hk : 0 <= k < 2 ^ 31.
  Hypothesis Hloc : forall j, 1 <= j <= n -> states v j (loc j) /\ -1 <= loc j < 2 ^ 31.
  Hypothesis Hne : forall j, 1 <= j <= n -> 0 < loc j -> states (part v n rel j) 1 (ne j) /\ 0 <= ne j < 2 ^ 29.
  Hypothesis Haloc : forall j i, 1 <= j <= n -> 0 < loc j -> 1 <= i <= ne j -> states (part v n rel j) (1 + ne j + i) (aloc j i) /\ - 2 ^ 31 < aloc j i < 2 ^ 31.
  Hypothesis Hcnt : forall j i, 1 <= j <= n -> 0 < loc j -> 1 <= i <= ne j -> aloc j i < 0 ->
    states (part (part v n rel j) (ne j) (fun i => angular_start (loc j) (aloc j i)) i) 2 (cnt j i) /\ 0 <= cnt j i < 2 ^ 30.
  Let ok (j : Z) : Prop := angular_fits (part v n rel j) (ne j) (loc j) (aloc j) (cnt j).

  Lemma zz : 0 <= z <= 1 /\ (if zero then 0 else 1) = 1 - z.
  Proof. unfold z. destruct zero; lia. Qed.
  Lemma land_at bm j : 1 <= j <= n -> j <= size v -> ab_LAND_ bm v nr zero (j - z) = Ok (loc j).
  Proof.
    intros Hj L. destruct zz as [Z1 Z2]. destruct (Hloc j Hj) as [S R]. unfold ab_LAND_. rewrite Z2.
    unfold check. rewrite u64_small by lia. unfold verifyIndex, throw_if.
    destruct ((j - z <? 1 - z) || (nr <? j - z)) eqn:E; [unfold n in *; lia|].
    replace (if debug bm then Ok tt else Ok tt) with (Ok tt) by (destruct (debug bm); reflexivity). cbn [bind]. fold z.
    replace (j - z + z) with j by lia. assert (W := states_holds v j (loc j) I S ltac:(lia)). destruct W as (w & W & Hw). unfold ixss. rewrite (xss_word bm v j I) by lia. rewrite W. cbn [bind]. apply to_int_whole; [exact Hw|lia].
  Qed.
  Lemma land_out j : 1 <= j <= n -> size v < j -> ab_LAND_ Debug v nr zero (j - z) = Throw OutOfRange.
  Proof.
    intros Hj L. destruct zz as [Z1 Z2]. unfold ab_LAND_. rewrite Z2. cbn [check debug]. rewrite u64_small by lia. unfold verifyIndex, throw_if.
    destruct ((j - z <? 1 - z) || (nr <? j - z)) eqn:E; [reflexivity|]. cbn [bind]. fold z.
    replace (j - z + z) with j by lia. unfold ixss. rewrite xss_short by (assumption || (unfold n in *; lia)). reflexivity.
  Qed.
  Lemma rel_range j : 1 <= j <= n -> -1 <= rel j < 2 ^ 32.
  Proof. intros Hj. destruct (Hloc j Hj) as [_ R]. unfold rel. lia. Qed.
  Lemma start_at j : 1 <= j <= n -> n <= k -> u64 (k + 1 + loc j - 1) = rel j.
  Proof. intros Hj L. destruct (Hloc j Hj) as [_ R]. destruct zz as [Z1 Z2]. rewrite u64_small; unfold rel in *; lia. Qed.

  Lemma right_in bm start js : n <= k -> (forall j, In j js -> 1 <= j <= n /\ j <= size v) ->
    ab_right bm v nr zero (k + 1) start (map (fun j => j - z) js) = match next_start rel start js with Some l => iter bm v l | None => Ok (vend v) end.
  Proof.
    intros K. induction js as [|j js IH]; intros H; [reflexivity|]. destruct (H j (or_introl eq_refl)) as [Hj L].
    cbn [map ab_right next_start]. rewrite (land_at bm j Hj L). cbn [bind]. cbv zeta. rewrite (start_at j Hj K).
    destruct (start <? rel j); [reflexivity|]. apply IH. intros i Hi. apply H. right. exact Hi.
  Qed.
  (** In Debug the search ends where the specification says, or throws. *)
  Lemma right_settles start js : n <= k -> (forall j, In j js -> 1 <= j <= n) -> 1 <= start <= size v + 1 ->
    let e := match next_start rel start js with Some l => l | None => size v + 1 end in
    (ab_right Debug v nr zero (k + 1) start (map (fun j => j - z) js) = Ok (vbeg v + e - 1) /\ start <= e <= size v + 1)
    \/ exists x, ab_right Debug v nr zero (k + 1) start (map (fun j => j - z) js) = Throw x.
  Proof.
    intros K. pose proof (size_bound v I) as SB. induction js as [|j js IH]; intros H S; cbv zeta.
    - left. cbn [next_start map ab_right]. split; [f_equal; unfold size; lia|lia].
    - assert (Hj : 1 <= j <= n) by (apply H; left; reflexivity). cbn [map ab_right next_start].
      destruct (Z.leb_spec j (size v)) as [L|L]; [|rewrite (land_out j Hj L); right; eexists; reflexivity].
      rewrite (land_at Debug j Hj L). cbn [bind]. cbv zeta. rewrite (start_at j Hj K). pose proof (rel_range j Hj) as R.
      destruct (Z.ltb_spec start (rel j)) as [X|X].
      + destruct (Z.leb_spec (rel j) (size v + 1)) as [Y|Y].
        * destruct (Z.leb_spec 1 (rel j)) as [W|W].
          -- left. rewrite (iter_in v I Debug) by lia. split; [reflexivity|lia].
          -- left. exfalso. destruct (Hloc j Hj) as [_ Q]. unfold rel in *. lia.
        * right. rewrite (iter_out v I) by lia. eexists. reflexivity.
      + apply IH; [intros i Hi; apply H; right; exact Hi|exact S].
  Qed.
  Lemma seq_shift a m : seqZ (a - z) m = map (fun j => j - z) (seqZ a m).
  Proof. revert a. induction m as [|m IH]; intros a; [reflexivity|]. cbn [seqZ map]. f_equal. rewrite <- IH. f_equal. lia. Qed.

  Lemma entry_decides j : 1 <= j <= n -> 0 < loc j -> inside (part v n rel j) ->
    (ok j -> forall bm, exists a, an_make bm (loc j) (part v n rel j) = Ok a /\ and_shows bm (loc j) (ne j) (aloc j) (cnt j) (DData a))
    /\ (~ ok j -> exists e, an_make Debug (loc j) (part v n rel j) = Throw e).
  Proof.
    intros Hj P In. destruct (Hne j Hj P) as [S R]. destruct (Hloc j Hj) as [_ Q].
    destruct (an_decides (part v n rel j) (ne j) (loc j) (aloc j) (cnt j) In R ltac:(lia) S) as [A B].
    - intros i Hi. apply (Haloc j i Hj P Hi).
    - intros i Hi N. apply (Hcnt j i Hj P Hi N).
    - split; [|exact B]. intros O bm. destruct (A O bm) as (a & E & X & Y). exists a. split; [exact E|]. unfold and_shows.
      destruct (Z.eqb_spec (loc j) 0); [lia|]. destruct (Z.ltb_spec (loc j) 0); [lia|]. eauto.
  Qed.
  Let it : Z := vbeg v + k.
  Lemma base_ : u64 (it - vbeg v) + 1 = k + 1.
  Proof. unfold it. replace (vbeg v + k - vbeg v) with k by lia. rewrite u64_small by lia. reflexivity. Qed.

  Lemma entry_in bm j : n <= k -> n <= size v -> 1 <= j <= n ->
    (0 < loc j -> rel j <= size v + 1 /\ stop v n rel j <= size v + 1 /\ ok j) ->
    exists d, ab_distribution bm v nr zero it (j - z) = Ok d /\ and_shows bm (loc j) (ne j) (aloc j) (cnt j) d.
  Proof.
    intros K L Hj F. pose proof (size_bound v I) as SB. destruct zz as [Z1 Z2]. destruct (Hloc j Hj) as [_ R]. unfold ab_distribution. rewrite (land_at bm j Hj ltac:(lia)). cbn [bind].
    destruct (Z.leb_spec 0 (loc j)) as [P|P].
    2: { exists DElse. split; [reflexivity|]. unfold and_shows. destruct (Z.eqb_spec (loc j) 0); [lia|]. destruct (Z.ltb_spec (loc j) 0); [reflexivity|lia]. }
    destruct (Z.eqb_spec (loc j) 0) as [E|E].
    { exists DIso. split; [reflexivity|]. unfold and_shows. rewrite E. reflexivity. }
    destruct (F ltac:(lia)) as (A & B & C). cbv zeta. rewrite base_. rewrite (u64_small (loc j)) by lia. rewrite (start_at j Hj K).
    assert (Q : 1 <= rel j) by (unfold rel; lia). rewrite (iter_in v I bm) by lia. cbn [bind].
    replace (j - z + 1) with (j + 1 - z) by lia. rewrite seq_shift. replace (Z.to_nat (nr - (j - z))) with (Z.to_nat (n - j)) by (unfold n; lia).
    rewrite right_in; [|exact K|intros i Hi; apply in_seqZ in Hi; lia].
    assert (G : match next_start rel (rel j) (seqZ (j + 1) (Z.to_nat (n - j))) with Some l => iter bm v l | None => Ok (vend v) end = Ok (vbeg v + stop v n rel j - 1)).
    { unfold stop in B |- *. destruct (next_start rel (rel j) _) as [l|] eqn:X; [|f_equal; unfold size; lia]. pose proof (next_later _ _ _ _ X). apply (iter_in v I bm). lia. }
    rewrite G. cbn [bind]. change (sub v (vbeg v + rel j - 1) (vbeg v + stop v n rel j - 1)) with (part v n rel j).
    assert (In : inside (part v n rel j)).
    { unfold part, stop in *. destruct (next_start rel (rel j) _) as [l|] eqn:X; [pose proof (next_later _ _ _ _ X)|]; unfold size in *; apply Decide.sub_inside; auto; lia. }
    destruct (entry_decides j Hj ltac:(lia) In) as [D _]. destruct (D C bm) as (a & Ea & Sa). rewrite Ea. cbn [bind]. eauto.
  Qed.
  Lemma entry_settles j : n <= k -> 1 <= j <= n ->
    ((exists d, ab_distribution Debug v nr zero it (j - z) = Ok d) /\ j <= size v /\ (0 < loc j -> rel j <= size v + 1 /\ stop v n rel j <= size v + 1 /\ ok j))
    \/ exists e, ab_distribution Debug v nr zero it (j - z) = Throw e.
  Proof.
    intros K Hj. pose proof (size_bound v I) as SB. destruct zz as [Z1 Z2]. destruct (Hloc j Hj) as [_ R]. pose proof (rel_range j Hj) as RR. unfold ab_distribution.
    destruct (Z.leb_spec j (size v)) as [L|L]; [|rewrite (land_out j Hj L); right; eexists; reflexivity].
    rewrite (land_at Debug j Hj L). cbn [bind].
    destruct (Z.leb_spec 0 (loc j)) as [P|P]; [|left; split; [eauto|]; split; [exact L|lia]].
    destruct (Z.eqb_spec (loc j) 0) as [E|E]; [left; split; [eauto|]; split; [exact L|lia]|].
    cbv zeta. rewrite base_. rewrite (u64_small (loc j)) by lia. rewrite (start_at j Hj K).
    assert (Q : 1 <= rel j) by (unfold rel; lia).
    destruct (Z.leb_spec (rel j) (size v + 1)) as [A|A]; [|rewrite (iter_out v I) by lia; right; eexists; reflexivity].
    rewrite (iter_in v I Debug) by lia. cbn [bind].
    replace (j - z + 1) with (j + 1 - z) by lia. rewrite seq_shift. replace (Z.to_nat (nr - (j - z))) with (Z.to_nat (n - j)) by (unfold n; lia).
    destruct (right_settles (rel j) (seqZ (j + 1) (Z.to_nat (n - j))) K) as [[G B]|[x G]]; [intros i Hi; apply in_seqZ in Hi; lia|lia| |].
    2: { rewrite G. right. eexists. reflexivity. }
    rewrite G. cbn [bind]. fold (stop v n rel j) in *. change (sub v (vbeg v + rel j - 1) (vbeg v + stop v n rel j - 1)) with (part v n rel j).
    assert (In : inside (part v n rel j)).
    { unfold part. pose proof I as [(F1 & F2 & F3) F4]. unfold size in *. apply Decide.sub_inside; auto; lia. }
    destruct (entry_decides j Hj ltac:(lia) In) as [D1 D2]. destruct (angular_fits_dec (part v n rel j) (ne j) (loc j) (aloc j) (cnt j)) as [O|O].
    - destruct (D1 O Debug) as (a & Ea & _). rewrite Ea. cbn [bind]. left. split; [eauto|]. split; [exact L|]. intros _. split; [exact A|]. split; [lia|exact O].
    - destruct (D2 O) as [e Ee]. rewrite Ee. right. eexists. reflexivity.
  Qed.

  Lemma ab_decides :
    (and_fits v n k loc ne aloc cnt -> forall bm, exists o, ab_make bm v (vbeg v + k) nr zero = Ok o /\ ab_nr o = nr
       /\ forall j, 1 <= j <= n -> exists d, ab_datum bm o (j - z) = Ok d /\ and_shows bm (loc j) (ne j) (aloc j) (cnt j) d)
    /\ (~ and_fits v n k loc ne aloc cnt -> exists e, ab_make Debug v (vbeg v + k) nr zero = Throw e).
  Proof.
    pose proof (size_bound v I) as SB. destruct zz as [Z1 Z2].
    assert (Sq : seqZ (if zero then 0 else 1) (Z.to_nat (nr + (if zero then 1 else 0))) = map (fun j => j - z) (seqZ 1 (Z.to_nat n))) by (rewrite Z2; apply seq_shift).
    assert (Mm : forall bm, mapM (ab_distribution bm v nr zero it) (map (fun j => j - z) (seqZ 1 (Z.to_nat n))) = mapM (fun j => ab_distribution bm v nr zero it (j - z)) (seqZ 1 (Z.to_nat n))).
    { intros bm. apply mapM_map. }
    split.
    - intros (K & L & F) bm. unfold ab_make. fold z it. replace (u64 (it - vbeg v)) with k by (pose proof base_; lia).
      fold n. destruct (Z.ltb_spec k n) as [X|_]; [lia|]. cbn [throw_if bind]. unfold ab_generateBlocks. rewrite Sq, Mm.
      destruct (mapM_seq (fun j => ab_distribution bm v nr zero it (j - z)) (fun m d => and_shows bm (loc (Z.of_nat m + 1)) (ne (Z.of_nat m + 1)) (aloc (Z.of_nat m + 1)) (cnt (Z.of_nat m + 1)) d) (Z.to_nat n) 1 0) as (ds & E & Nl & Rr).
      { intros m Hm. replace (Z.of_nat (0 + m) + 1) with (1 + Z.of_nat m) by lia. apply (entry_in bm (1 + Z.of_nat m) K L ltac:(lia)). apply F. lia. }
      rewrite E. cbn [bind]. eexists. split; [reflexivity|]. split; [reflexivity|]. intros j Hj. unfold ab_datum. cbn [ab_zero ab_nr ab_data].
      rewrite Z2. unfold check. rewrite u64_small by (unfold n in *; lia). unfold verifyIndex, throw_if.
      destruct ((j - z <? 1 - z) || (nr <? j - z)) eqn:X; [unfold n in *; lia|].
      replace (if debug bm then Ok tt else Ok tt) with (Ok tt) by (destruct (debug bm); reflexivity). cbn [bind].
      replace (if zero then j - z + 1 else j - z) with j by (unfold z; destruct zero; lia).
      unfold at_. rewrite u64_small by lia. destruct (nth_error ds (Z.to_nat (j - 1))) as [d|] eqn:Nd; [|apply nth_error_None in Nd; lia].
      exists d. split; [reflexivity|]. specialize (Rr _ _ Nd). replace (Z.of_nat (0 + Z.to_nat (j - 1)) + 1) with j in Rr by lia. exact Rr.
    - intros F. unfold ab_make. fold z it. replace (u64 (it - vbeg v)) with k by (pose proof base_; lia).
      fold n. destruct (Z.ltb_spec k n) as [X|K]; [eexists; reflexivity|]. cbn [throw_if bind]. unfold ab_generateBlocks. rewrite Sq, Mm.
      destruct (mapM_settles (fun j => ab_distribution Debug v nr zero it (j - z)) (seqZ 1 (Z.to_nat n))) as [(r & _ & Q)|[e R]].
      { intros j Hj. apply in_seqZ in Hj. destruct (entry_settles j K ltac:(lia)) as [[E _]|E]; auto. }
      2: { rewrite R. eexists. reflexivity. }
      exfalso. apply F. split; [exact K|].
      assert (G : forall j, 1 <= j <= n -> j <= size v /\ (0 < loc j -> rel j <= size v + 1 /\ stop v n rel j <= size v + 1 /\ ok j)).
      { intros j Hj. destruct (Q j) as [d Ed]; [apply in_seqZ; lia|]. destruct (entry_settles j K Hj) as [[_ A]|[e E]]; [exact A|congruence]. }
      split; [|intros j Hj P; exact (proj2 (G j Hj) P)].
      destruct (Z.leb_spec 1 n) as [N1|N1]; [exact (proj1 (G n ltac:(lia)))|lia].
  Qed.
End And.

