(** * The refresh at midnight. *)

From Coq Require Import List ZArith QArith Bool Arith Lia.
From Coq Require Import ZifyBool ZifyNat.
From Verif Require Import SpecBase Switch_Spec Switch_Proofs.
Import ListNotations.
Local Open Scope Z_scope.

Ltac Zify.zify_post_hook ::= Z.div_mod_to_equations.

Section Midnight.
  Variables (start first : Z).
  Hypothesis midnight : first mod a_day = 0.
  Hypothesis same_day : start / a_day = first / a_day.

  Lemma alike_day : forall t t', t / a_day = t' / a_day -> alike t = alike t'.
  Proof. intros t t' H. unfold alike. rewrite H. reflexivity. Qed.

  Lemma before_midnight : forall b, b mod a_day = 0 -> alike (b - 1) = alike (b - a_day + ten) /\ alike b = alike (b + ten).
  Proof. intros b H. split; apply alike_day; unfold a_day, ten in *; lia. Qed.

  Lemma refreshed_midnight : forall t b, refreshed 0 first t b <-> b mod a_day = 0 /\ first <= b < t.
  Proof.
    intros t b. unfold refreshed. split; [tauto|]. intros [H1 H2]. split; [exact H1|]. split; [exact H2|].
    exists ((b - first) / ten). unfold a_day, ten in *. lia.
  Qed.

  Lemma in_force_midnight : forall t, first <= t ->
    exists days, in_force 0 start first t days /\
      (t mod a_day <> 0 -> days = alike t) /\ (t mod a_day = 0 -> first < t -> days = alike (t - 1)) /\ (t = first -> days = alike t).
  Proof.
    intros t Ht. assert (Hstart : alike start = alike first) by (apply alike_day; exact same_day).
    destruct (Z.eq_dec (t mod a_day) 0) as [Hm|Hm].
    - destruct (Z.eq_dec t first) as [->|Hne].
      + exists (alike start). split; [apply in_force_first|]. split; [lia|]. split; [lia|]. auto.
      + exists (alike (t - 1)). split; [|split; [lia|split; [auto|lia]]].
        left. exists (t - a_day). split; [|apply (before_midnight t Hm)].
        split; [apply refreshed_midnight; unfold a_day in *; lia|].
        intros b' Hb'. apply refreshed_midnight in Hb'. unfold a_day in *. lia.
    - exists (alike t). split; [|split; [auto|split; [lia|auto]]].
      left. exists (t - t mod a_day). split; [|apply alike_day; unfold a_day, ten in *; lia].
      split; [apply refreshed_midnight; unfold a_day in *; lia|].
      intros b' Hb'. apply refreshed_midnight in Hb'. unfold a_day in *. lia.
  Qed.

  Lemma changed_midnight : forall t b, changed 0 start first t b <-> turn first t b.
  Proof.
    intros t b. unfold changed, turn. rewrite refreshed_midnight. split.
    - intros ((Hb & Hlt) & days & Hin & Hne). destruct (in_force_midnight b ltac:(lia)) as (days' & Hin' & _ & H2 & H3).
      rewrite (in_force_fun _ _ _ _ _ _ Hin Hin') in Hne. destruct (before_midnight b Hb) as [_ E].
      destruct (Z.eq_dec b first) as [->|Hn]; [rewrite (H3 eq_refl), E in Hne; congruence|].
      split; [lia|]. rewrite (H2 Hb ltac:(lia)) in Hne. congruence.
    - intros ((Hb & Hlt) & Hne). split; [lia|]. destruct (in_force_midnight b ltac:(lia)) as (days & Hin & _ & H2 & _).
      exists days. split; [exact Hin|]. destruct (before_midnight b Hb) as [_ E]. rewrite (H2 Hb ltac:(lia)). congruence.
  Qed.

  Lemma number_midnight : forall t k, (ten | t - first) -> matrix_number 0 start first t k ->
    ((exists b, turn first t b) -> Z.of_nat k mod 144 = slot t) /\
    ((forall b, ~ turn first t b) -> Z.of_nat k mod 144 = (slot t + 1) mod 144).
  Proof.
    intros t k [j Hj] [(b & [Hb Hlast] & Hk)|[Hno Hk]]; unfold slot.
    - apply changed_midnight in Hb. split; [|intros H; exfalso; exact (H b Hb)]. intros _.
      destruct Hb as ((Hb & _) & _). unfold a_day, ten in *. lia.
    - split; [intros [b Hb]; exfalso; apply (Hno b), changed_midnight; exact Hb|]. intros _. unfold a_day, ten in *. lia.
  Qed.
End Midnight.

(** Off the grid of ten minutes no step begins at the refresh time. *)
Lemma never_refreshed : forall r first t b, ~ (ten | first - r) -> ~ refreshed r first t b.
Proof.
  intros r first t b H (Hb & _ & [j Hj]). apply H. exists (144 * (b / a_day) - j). unfold ten, a_day in *. lia.
Qed.
