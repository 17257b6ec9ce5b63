(** The words of a text: the maximal sequences of characters that are not white space. *)
From Coq Require Import ZArith Bool List Lia Ascii.
From Coq Require Import ZifyBool ZifyNat.
From Verif Require Import Base SZA.
From Verif Require Export TextFacts.
Import ListNotations.
Open Scope Z_scope.

Fixpoint words (s : text) : list text :=
  match s with
  | [] => []
  | c :: r =>
      if is_space c then words r else
      match r with
      | [] => [[c]]
      | d :: _ => if is_space d then [c] :: words r
                  else match words r with w :: ws => (c :: w) :: ws | [] => [[c]] end
      end
  end.

Definition spaces (s : text) : Prop := Forall (fun c => is_space c = true) s.

Lemma words_word w : forall r, word w -> w <> [] -> ends_number r -> words (w ++ r) = w :: words r.
Proof.
  induction w as [|c w IH]; intros r W N R; [congruence|]. inversion W; subst. cbn [app words]. rewrite H1. destruct w as [|d w].
  - cbn [app]. destruct r as [|d r]; [reflexivity|]. cbn [ends_number] in R. rewrite R. cbn [words]. rewrite R. reflexivity.
  - inversion H2; subst. cbn [app]. rewrite H3. change (d :: w ++ r) with ((d :: w) ++ r). rewrite (IH r H2 ltac:(discriminate) R). reflexivity.
Qed.
Lemma words_spaces a r : spaces a -> words (a ++ r) = words r.
Proof. induction 1 as [|c a H _ IH]; [reflexivity|]. cbn [app words]. rewrite H. exact IH. Qed.
Lemma words_app_space c b : is_space c = true -> forall a, words (a ++ c :: b) = words a ++ words b.
Proof.
  intros Hc. induction a as [|d a IH]; cbn [app words]; [rewrite Hc; reflexivity|]. destruct (is_space d) eqn:D; [exact IH|].
  destruct a as [|e a]; cbn [app].
  - rewrite Hc. cbn [words]. rewrite Hc. reflexivity.
  - destruct (is_space e) eqn:E; [|].
    + cbn [app] in IH. rewrite IH. reflexivity.
    + cbn [app] in IH. rewrite IH. destruct (words (e :: a)) as [|w ws] eqn:W; [|reflexivity].
      exfalso. cbn [words] in W. rewrite E in W. destruct a as [|f a]; [discriminate W|]. destruct (is_space f); [discriminate W|]. destruct (words (f :: a)); discriminate W.
Qed.
Lemma words_trailing b : spaces b -> forall a, words (a ++ b) = words a.
Proof.
  intros Hb. induction Hb as [|c b H Hb IH]; intros a; [rewrite app_nil_r; reflexivity|]. rewrite words_app_space by exact H.
  replace (words b) with (@nil text); [apply app_nil_r|]. rewrite <- (app_nil_r b), words_spaces by exact Hb. reflexivity.
Qed.
Lemma words_nil_spaces s : words s = [] -> spaces s.
Proof.
  induction s as [|c s IH]; intros H; [constructor|]. cbn [words] in H. destruct (is_space c) eqn:C; [constructor; [exact C|apply IH; exact H]|].
  exfalso. destruct s as [|d s]; [discriminate|]. destruct (is_space d); [discriminate|]. destruct (words (d :: s)); discriminate.
Qed.
Lemma words_strip s : words (strip s) = words s.
Proof.
  unfold strip. destruct (skip_spaces_shape s) as (a & Ea & Fa & _). destruct (rstrip_shape (skip_spaces s)) as (b & Eb & Fb & _).
  rewrite Ea at 2. rewrite (words_spaces a _ Fa). rewrite Eb at 2. rewrite (words_trailing b Fb). reflexivity.
Qed.
(** reading the first word *)
Lemma words_cons s t ws : words s = t :: ws -> exists a r, s = a ++ t ++ r /\ spaces a /\ word t /\ t <> [] /\ ends_number r /\ words r = ws.
Proof.
  intros H. destruct (skip_spaces_shape s) as (a & Ea & Fa & C). rewrite Ea, (words_spaces a _ Fa) in H. destruct C as [C|(c & r & C & Hc)]; [rewrite C in H; discriminate H|].
  rewrite C in *. clear C. assert (D : exists w r', c :: r = w ++ r' /\ word w /\ w <> [] /\ ends_number r').
  { clear -Hc. revert c Hc. induction r as [|d r IH]; intros c Hc.
    - exists [c], []. split; [reflexivity|]. split; [constructor; [exact Hc|constructor]|]. split; [discriminate|exact I].
    - destruct (is_space d) eqn:D.
      + exists [c], (d :: r). split; [reflexivity|]. split; [constructor; [exact Hc|constructor]|]. split; [discriminate|exact D].
      + destruct (IH d D) as (w & r' & E & W & N & R). exists (c :: w), r'. split; [cbn [app]; congruence|]. split; [constructor; assumption|]. split; [discriminate|exact R]. }
  destruct D as (w & r' & E & W & N & R). rewrite E, (words_word w r' W N R) in H. injection H as <- <-.
  exists a, r'. rewrite <- E. repeat (split; [assumption|]). reflexivity.
Qed.
(** a sequence of non-blank characters lies within a word *)
Lemma words_run b c : word b -> b <> [] -> forall a, exists w, In w (words (a ++ b ++ c)) /\ (length b <= length w)%nat.
Proof.
  intros W N. assert (H0 : exists u r, b ++ c = u ++ r /\ word u /\ (length b <= length u)%nat /\ ends_number r).
  { destruct (words (b ++ c)) as [|w ws] eqn:E.
    - apply words_nil_spaces in E. destruct b as [|x b]; [congruence|]. inversion E; inversion W; subst. congruence.
    - clear N E. induction W as [|x b Hx W IH].
      + clear w ws. induction c as [|y c (u & r & E & Wu & L & R)]; [exists [], []; repeat split; constructor|]. cbn [app] in *. destruct (is_space y) eqn:Y.
        * exists [], (y :: c). split; [reflexivity|]. split; [constructor|]. split; [cbn; lia|exact Y].
        * exists (y :: u), r. split; [cbn [app]; congruence|]. split; [constructor; assumption|]. split; [cbn; lia|exact R].
      + destruct IH as (u & r & E & Wu & L & R). exists (x :: u), r. split; [cbn [app]; congruence|]. split; [constructor; assumption|]. split; [cbn; lia|exact R]. }
  destruct H0 as (u & r & E & Wu & L & R). rewrite E. assert (Nu : u <> []) by (intros ->; destruct b; [congruence|cbn in L; lia]).
  induction a as [|x a (w & Iw & Lw)].
  - exists u. cbn [app]. rewrite (words_word u r Wu Nu R). split; [left; reflexivity|exact L].
  - cbn [app words]. destruct (is_space x) eqn:X; [exists w; split; assumption|]. destruct (a ++ u ++ r) as [|d s] eqn:Es; [destruct Iw|].
    destruct (is_space d) eqn:D; [exists w; split; [right; exact Iw|exact Lw]|]. destruct (words (d :: s)) as [|v vs]; [destruct Iw|].
    destruct Iw as [<-|Iw]; [exists (x :: v); split; [left; reflexivity|cbn [length]; lia]|exists w; split; [right; exact Iw|exact Lw]].
Qed.
(** prefixes of words *)
Lemma words_app_words a b : ends_number b -> words (a ++ b) = words a ++ words b.
Proof.
  intros H. destruct b as [|c b]; [rewrite !app_nil_r; reflexivity|]. cbn [ends_number] in H. rewrite words_app_space by exact H.
  cbn [words]. rewrite H. reflexivity.
Qed.
