(** * Properties of the probabilities of the lighting (C190, C191). *)

From Coq Require Import List ZArith QArith Qpower Qminmax Bool Arith Lia Lqa.
From Verif Require Import Prelude PreludeFacts SpecBase SpecBaseFacts Appliance_Spec Light_Model Light_Spec Light_Proofs Law_Spec Law_Base LightLaw_Spec LightLaw_Proofs.
Import ListNotations.
Local Open Scope Q_scope.

(** ** C190: waiting for the light *)

(** A bulb that is dark, or in its last minute, of a household where somebody is
    active at all steps: the probability that it is dark after each of the steps is
    the product of the complements of the chances of the steps.  The draws of all
    other bulbs do not matter. *)
Theorem C190_dark : forall par n k s h j b vs, good_durations par -> lights n k s -> bulb_at s h j b -> (b_left b = 0 \/ b_left b = 1)%Z ->
  Forall (fun v => possible par n v /\ someone h v) vs ->
  has_probability (2 * length vs) (fun us => forall ins, follows h j vs us ins -> dark_for par s h j ins) (none_of (map (chance par b h) vs)).
Proof. intros. eapply dark_probability; eauto. Qed.

(** The probability that the last of the steps is the first one that lights it. *)
Theorem C190_first : forall par n k s h j b vs, good_durations par -> lights n k s -> bulb_at s h j b -> (b_left b = 0 \/ b_left b = 1)%Z ->
  Forall (fun v => possible par n v /\ someone h v) vs -> vs <> [] ->
  has_probability (2 * length vs) (fun us => forall ins, follows h j vs us ins -> first_lit par s h j ins) (at_last (map (chance par b h) vs)).
Proof. intros. eapply first_probability; eauto. Qed.

Lemma none_repeat : forall q n, none_of (repeat q n) == (1 - q) ^ Z.of_nat n.
Proof.
  intros q n. induction n as [|n IH]; [reflexivity|]. rewrite Nat2Z.inj_succ, <- Z.add_1_r. unfold none_of in *. cbn [repeat map product]. rewrite IH.
  rewrite Qpower_plus' by lia. change ((1 - q) ^ 1) with (1 - q). ring.
Qed.

Lemma removelast_repeat : forall A (x : A) n, removelast (repeat x (S n)) = repeat x n.
Proof. intros A x n. induction n as [|n IH]; [reflexivity|]. change (repeat x (S (S n))) with (x :: repeat x (S n)). cbn [removelast]. rewrite IH. reflexivity. Qed.

Lemma last_repeat : forall A (x d : A) n, last (repeat x (S n)) d = x.
Proof. intros A x d n. induction n as [|n IH]; [reflexivity|]. exact IH. Qed.

Lemma map_repeat' : forall A B (f : A -> B) x n, map f (repeat x n) = repeat (f x) n.
Proof. intros A B f x n. induction n as [|n IH]; [reflexivity|]. cbn. rewrite IH. reflexivity. Qed.

(** When occupancy and light do not change the waiting time is geometric. *)
Theorem C190_geometric : forall par n k s h j b v w, good_durations par -> lights n k s -> bulb_at s h j b -> (b_left b = 0 \/ b_left b = 1)%Z ->
  possible par n v -> someone h v ->
  has_probability (2 * S w) (fun us => forall ins, follows h j (repeat v (S w)) us ins -> first_lit par s h j ins)
    ((1 - chance par b h v) ^ Z.of_nat w * chance par b h v).
Proof.
  intros par n k s h j b v w G Hs Hb Hz P O. eapply prob_ext.
  - pose proof (first_probability par n k h j G (repeat v (S w)) s b Hs Hb Hz) as R. rewrite repeat_length in R. apply R; [|discriminate].
    apply Forall_forall. intros x Hx. apply repeat_spec in Hx. subst. auto.
  - reflexivity.
  - rewrite map_repeat'. unfold at_last. rewrite removelast_repeat, last_repeat, none_repeat. reflexivity.
Qed.

(** A chance is a probability, never more with enough light outside than without, and
    nobody lights a bulb whose effective occupancy is nil. *)
Theorem C190_chance : forall par b h v,
  0 <= chance par b h v /\ chance par b h v <= 1 /\
  (b_thr b <= snd v -> chance par b h v <= 1 # 20) /\
  (forall q, q < b_thr b -> b_thr b <= snd v -> chance par b h v == (1 # 20) * chance par b h (fst v, q)) /\
  (nth (Z.to_nat (nth h (fst v) 0%Z)) (p_eff par) 0 == 0 -> chance par b h v == 0).
Proof.
  intros par b h v. unfold chance. cbn [fst snd]. set (x := nth (Z.to_nat (nth h (fst v) 0%Z)) (p_eff par) 0 * b_use b * p_cal par).
  pose proof (clip_range x) as [C0 C1]. repeat split.
  - destruct (Qlt_le_dec (snd v) (b_thr b)); apply Qmult_le_0_compat; lra.
  - destruct (Qlt_le_dec (snd v) (b_thr b)); lra.
  - intro H. destruct (Qlt_le_dec (snd v) (b_thr b)); lra.
  - intros q H1 H2. destruct (Qlt_le_dec (snd v) (b_thr b)); [lra|]. destruct (Qlt_le_dec q (b_thr b)); [lra|lra].
  - intro H. assert (X : x == 0) by (unfold x; rewrite H; ring). assert (Y : clip x == 0) by (rewrite <- X; apply clip_id; lra). rewrite Y. ring.
Qed.

(** A bulb of the second household is lit before another step begins: in the dark
    with the chance of the occupants, in daylight with a twentieth of it. *)
Definition dim := LSim [[Some 60; Some 40]; [Some 100; Some 25]] [[1; 2]; [1 # 2; 1]] [50; 10] [[0; 0]; [0; 1]]%Z.
Definition dims := LPar (1 # 2) [0; 1; (3 # 2)] [(1 # 2); 1] [1; 3] [3; 9].
Example C190_example :
  map Qred (map (chance dims (Bulb (Some 25) 1 10 1) 1) [([1; 1]%Z, 20); ([1; 1]%Z, 5); ([1; 2]%Z, 5)]) = [1 # 40; 1 # 2; 3 # 4] /\
  has_probability 6 (fun us => forall ins, follows 1 1 [([1; 1]%Z, 20); ([1; 1]%Z, 5); ([1; 2]%Z, 5)] us ins -> first_lit dims dim 1 1 ins) (117 # 320) /\
  light_do dims dim (LIn (LDraws (fun _ _ => 1 # 100) (fun _ _ => 1 # 4) (fun _ _ => 3 # 4) (fun _ _ => 1 # 2)) [0; 1]%Z 20) =
    Ok (LSim (l_power dim) (l_use dim) (l_thr dim) [[0; 0]; [0; 6]]%Z).
Proof.
  split; [vm_compute; reflexivity|]. split.
  - eapply prob_ext.
    + eapply (C190_first dims 2 2 dim 1 1 (Bulb (Some 25) 1 10 1) [([1; 1]%Z, 20); ([1; 1]%Z, 5); ([1; 2]%Z, 5)]).
      * split; [discriminate|]. split; [cbn; lia|]. split; [cbn; lia|]. intros [|[|k']] lo hi L H; [injection L as <-; injection H as <-; lra|injection L as <-; injection H as <-; lra|destruct k'; discriminate].
      * repeat split; intros [|[|h]] row R; try (injection R as <-; reflexivity); destruct h; discriminate.
      * repeat split; try (eexists; split; reflexivity).
      * right; reflexivity.
      * repeat (apply Forall_cons; [split; [split; [reflexivity|intros [|[|k']] m M; [injection M as <-; cbn; lia|injection M as <-; cbn; lia|destruct k'; discriminate]]|reflexivity]|]); constructor.
      * discriminate.
    + reflexivity.
    + vm_compute. reflexivity.
  - vm_compute. reflexivity.
Qed.

(** ** C191: minutes of light *)

(** With an interval drawn from the distribution [p] whose cumulative sums are stored,
    a dark bulb is given [m] minutes with the chance of being lit times the mixture:
    the sum, over the intervals, of their probability times the share of the interval
    within the minute [m]. *)
Theorem C191_minutes : forall par n k s h j b v p m, good_durations par -> is_pdf p -> cumulated p (p_cdf par) ->
  lights n k s -> bulb_at s h j b -> (b_left b = 0 \/ b_left b = 1)%Z -> possible par n v -> someone h v -> (1 <= m)%Z ->
  has_probability 4 (fun us => forall i, drawn_step h j v us i -> exists s1 b1, light_do par s i = Ok s1 /\ bulb_at s1 h j b1 /\ b_left b1 = m)
    (chance par b h v * minutes par p m).
Proof. intros. eapply lit_minutes; eauto. Qed.

(** The probabilities of the minutes add up to one: no interval is lost, and the light
    goes out before the largest of the upper ends. *)
Theorem C191_all : forall par p N, good_durations par -> is_pdf p -> cumulated p (p_cdf par) ->
  (forall k hi, at_ (p_high par) k hi -> hi < inject_Z (Z.of_nat N) + 1) ->
  total (map (fun m => minutes par p (Z.of_nat m)) (seq 1 N)) == 1.
Proof. exact minutes_total. Qed.

(** The share of a minute that lies within the interval, and of one outside. *)
Theorem C191_share : forall m lo hi, lo < hi ->
  (lo <= inject_Z m -> inject_Z m + 1 <= hi -> minute_share m lo hi == / (hi - lo)) /\
  (hi <= inject_Z m -> minute_share m lo hi == 0) /\ (inject_Z m + 1 <= lo -> minute_share m lo hi == 0).
Proof.
  intros m lo hi L. unfold minute_share. assert (E : Qeq_bool lo hi = false). { destruct (Qeq_bool lo hi) eqn:E; auto. apply Qeq_bool_iff in E. lra. } rewrite E. repeat split.
  - intros A B. rewrite (Q.max_r lo), (Q.min_r hi) by assumption. rewrite Q.max_r by lra. field. lra.
  - intros A. rewrite Q.min_l by lra. rewrite (Q.max_r lo) by lra. rewrite Q.max_l by lra. unfold Qdiv. ring.
  - intros A. rewrite (Q.min_r hi) by lra. rewrite (Q.max_l lo) by lra. rewrite Q.max_l by lra. unfold Qdiv. ring.
Qed.

Example C191_example :
  map Qred (map (minutes dims [1 # 2; 1 # 2]) [1; 2; 3; 8; 9]%Z) = [1 # 4; 1 # 4; 1 # 12; 1 # 12; 0] /\
  map Qred (map (fun t => minute_share t (5 # 2) (7 # 2)) [1; 2; 3; 4]%Z) = [0; 1 # 2; 1 # 2; 0] /\
  cumulated [1 # 2; 1 # 2] (p_cdf dims) /\
  light_do dims dim (LIn (LDraws (fun _ _ => 1) (fun _ _ => 1 # 8) (fun _ _ => 1 # 4) (fun _ _ => 3 # 4)) [0; 1]%Z 5) =
    Ok (LSim (l_power dim) (l_use dim) (l_thr dim) [[0; 0]; [2; 2]]%Z).
Proof.
  split; [vm_compute; reflexivity|]. split; [vm_compute; reflexivity|]. split; [|vm_compute; reflexivity].
  split; [reflexivity|]. intros [|[|k]] c C; [injection C as <-; reflexivity|injection C as <-; reflexivity|destruct k; discriminate].
Qed.

Print Assumptions C190_dark.
Print Assumptions C190_first.
Print Assumptions C190_geometric.
Print Assumptions C190_chance.
Print Assumptions C191_minutes.
Print Assumptions C191_all.
Print Assumptions C191_share.
