(** * Properties of the edit distance (C54). *)

From Coq Require Import List ZArith Arith Lia.
From Verif Require Import Prelude SpecBase Levenshtein_Model Levenshtein_Spec Levenshtein_Proofs.
Import ListNotations.

(** The least number of edits that turn one single digit profile into the other. *)
Theorem C54_least_partial : forall p q, (forall z, In z p -> 0 <= z < 10)%Z -> (forall z, In z q -> 0 <= z < 10)%Z -> least_edits (levenshtein_edit_distance p q) p q.
Proof. exact least_single. Qed.

(** For all profiles it is the least number of edits between the printed profiles. *)
Theorem C54_text : forall p q, least_edits (levenshtein_edit_distance p q) (text p) (text q).
Proof. intros p q. apply best_least, distance_best. Qed.

(** It is a metric on single digit profiles. *)
Theorem C54_metric_partial : forall p q r, (forall z, In z p -> 0 <= z < 10)%Z -> (forall z, In z q -> 0 <= z < 10)%Z -> (forall z, In z r -> 0 <= z < 10)%Z ->
  (levenshtein_edit_distance p q = 0 <-> p = q) /\ levenshtein_edit_distance p q = levenshtein_edit_distance q p /\
  levenshtein_edit_distance p r <= levenshtein_edit_distance p q + levenshtein_edit_distance q r.
Proof.
  intros p q r Hp Hq Hr. split; [|split].
  - apply least_zero, least_single; assumption.
  - eapply least_sym; apply least_single; assumption.
  - eapply least_triangle; apply least_single; assumption.
Qed.

(** For all profiles, symmetry and the triangle inequality remain. *)
Theorem C54_pseudo : forall p q r, levenshtein_edit_distance p p = 0 /\ levenshtein_edit_distance p q = levenshtein_edit_distance q p /\
  levenshtein_edit_distance p r <= levenshtein_edit_distance p q + levenshtein_edit_distance q r.
Proof.
  intros p q r. split; [|split].
  - apply (proj2 (least_zero _ _ _ (C54_text p p))). reflexivity.
  - eapply least_sym; apply C54_text.
  - eapply least_triangle; apply C54_text.
Qed.

(** Bounds by the lengths of single digit profiles. *)
Theorem C54_bounds : forall p q, (forall z, In z p -> 0 <= z < 10)%Z -> (forall z, In z q -> 0 <= z < 10)%Z ->
  length p <= levenshtein_edit_distance p q + length q /\ length q <= levenshtein_edit_distance p q + length p /\ levenshtein_edit_distance p q <= Nat.max (length p) (length q).
Proof.
  intros p q Hp Hq. destruct (least_single p q Hp Hq) as (S & M). destruct (script_length _ _ _ S) as (L1 & L2). split; [exact L1|]. split; [exact L2|].
  destruct (script_max p q) as (n & L & S'). specialize (M n S'). lia.
Qed.

(** Different states are printed differently, the negative ones too: profiles of
    one state have distance zero only when they are equal. *)
Theorem C54_one_state : forall z w, levenshtein_edit_distance [z] [w] = 0 <-> z = w.
Proof.
  intros z w. rewrite (least_zero _ _ _ (C54_text [z] [w])). cbn [text flat_map]. rewrite !app_nil_r. split; [apply str_int_inj|now intros ->].
Qed.

(** The distance to an empty profile is the number of printed characters, at
    least one per state. *)
Theorem C54_empty : forall p, length p <= levenshtein_edit_distance [] p /\ levenshtein_edit_distance [] p = length (text p).
Proof.
  intro p. assert (E : levenshtein_edit_distance [] p = length (text p)).
  { destruct (C54_text [] p) as (S & M). destruct (script_length _ _ _ S) as (L1 & L2). destruct (script_max (text []) (text p)) as (n & L & S'). specialize (M n S'). cbn [text flat_map length] in *. unfold text in *. lia. }
  split; [|exact E]. rewrite E. clear E. induction p as [|z p IH]; [simpl; lia|]. unfold text in *. cbn [flat_map length]. rewrite app_length.
  pose proof (str_int_nil z). destruct (str_int z); [congruence|]. cbn [length]. lia.
Qed.

(** With a state of two digits, different profiles can have distance zero. *)
Theorem C54_two_digits_refuted : exists p q, p <> q /\ levenshtein_edit_distance p q = 0 /\ ~ least_edits 0 p q.
Proof.
  exists [1; 12]%Z, [11; 2]%Z. split; [discriminate|]. split; [vm_compute; reflexivity|]. intros (S & _). inversion S.
Qed.

(** The documented example. *)
Example C54_example : levenshtein_edit_distance [1; 1; 0; 1; 1; 1]%Z [0; 0; 1; 0; 1; 1]%Z = 3 /\ text [10; -3]%Z = [1; 0; 10; 3].
Proof. conj_vm. Qed.

Print Assumptions C54_least_partial.
Print Assumptions C54_text.
Print Assumptions C54_metric_partial.
Print Assumptions C54_pseudo.
Print Assumptions C54_bounds.
Print Assumptions C54_two_digits_refuted.
Print Assumptions C54_one_state.
Print Assumptions C54_empty.
