(** * Properties of the relative use of bulbs (C192). *)

From Coq Require Import List Reals Lra Lia Arith.
From Verif Require Import Prelude PreludeFacts SpecBase SpecBaseFacts Use_Model Use_Spec Use_Proofs.
Import ListNotations.
Local Open Scope R_scope.

(** ** C192 *)

(** Every bulb of the table has a relative use, no other entry exists, and it exceeds
    [t] exactly when the draw of that bulb is below exp(-t / 2.30258509299404). *)
Theorem C192_law : forall A (bulbs_power : list (list A)) r, (forall h j, 0 <= r h j) ->
  (forall h j p, cell bulbs_power h j p -> exists v, cell (relative_use bulbs_power r) h j v) /\
  (forall h j v, cell (relative_use bulbs_power r) h j v ->
     (exists p, cell bulbs_power h j p) /\ forall t, above v t <-> r h j < exp (- t / 2.30258509299404)).
Proof.
  intros A bp r Hr. split.
  - intros h j p H. exists (one_use (r h j)). apply use_cell. eauto.
  - intros h j v H. apply use_cell in H as [-> H]. split; [exact H|]. intro t. apply (one_above (r h j) t). apply Hr.
Qed.

(** Draws of (0, 1) give positive finite values; a draw of 0 gives the infinity. *)
Theorem C192_positive : forall A (bulbs_power : list (list A)) r h j v, cell (relative_use bulbs_power r) h j v -> 0 <= r h j < 1 ->
  (0 < r h j -> exists x, v = Some x /\ 0 < x) /\ (r h j = 0 -> v = None).
Proof.
  intros A bp r h j v H [H0 H1]. apply use_cell in H as [-> _]. split.
  - intro P. destruct (one_sign (r h j) P H1) as (x & E & X). eauto.
  - intro E. unfold one_use. rewrite E. destruct (Req_EM_T 0 0); [reflexivity|contradiction].
Qed.

(** A larger draw gives a smaller use, for any two bulbs. *)
Theorem C192_decreasing : forall A (bulbs_power : list (list A)) r h j h' j' v v',
  cell (relative_use bulbs_power r) h j v -> cell (relative_use bulbs_power r) h' j' v' -> 0 <= r h j -> r h j < r h' j' -> smaller v' v.
Proof.
  intros A bp r h j h' j' v v' H H' P L. apply use_cell in H as [-> _]. apply use_cell in H' as [-> _]. apply one_smaller; assumption.
Qed.

(** All positive values are reached: the use is not bounded. *)
Theorem C192_unbounded : forall A (bulbs_power : list (list A)) h j p t, cell bulbs_power h j p -> 0 < t ->
  exists u, 0 < u < 1 /\ forall r, r h j = u -> cell (relative_use bulbs_power r) h j (Some t).
Proof.
  intros A bp h j p t H T. destruct (one_reaches t T) as (u & U0 & U1 & E). exists u. split; [lra|]. intros r R. apply use_cell. rewrite R, E. eauto.
Qed.

(** The mean: the integral of the use over the draws of [e, 1] tends to
    2.30258509299404 as [e] tends to 0. *)
Theorem C192_mean : forall d, 0 < d -> exists e0, 0 < e0 /\
  forall e (f : R -> R), 0 < e -> e <= 1 -> e < e0 -> (forall r, 0 < r -> one_use r = Some (f r)) ->
  exists pr : Riemann_integrable f e 1, Rabs (RiemannInt pr - 2.30258509299404) < d.
Proof.
  intros d Hd. destruct (mean_limit d Hd) as (e0 & E0 & K). exists e0. split; [exact E0|]. intros e f H L E F. destruct (mean_above e H L) as [pr P].
  assert (Ef : forall x, Rmin e 1 <= x <= Rmax e 1 -> use_of x = f x).
  { intros x [X _]. rewrite Rmin_left in X by exact L. specialize (F x ltac:(lra)). unfold one_use in F. destruct (Req_EM_T x 0); [lra|]. injection F as F. exact F. }
  exists (Riemann_integrable_ext f Ef pr). rewrite <- (RiemannInt_P18 pr (Riemann_integrable_ext f Ef pr) L), P.
  - apply (K e); assumption.
  - intros x X. apply Ef. rewrite Rmin_left, Rmax_right by exact L. lra.
Qed.

Example C192_example :
  relative_use [[Some 60%nat; None]; [None; None]] (fun h j => match h, j with O, O => 1 | O, _ => 0 | _, _ => exp (- 1) end) =
    [[Some 0; None]; [Some 2.30258509299404; Some 2.30258509299404]].
Proof.
  unfold relative_use. cbn [length seq map2]. unfold one_use. destruct (Req_EM_T 1 0) as [E|_]; [lra|]. destruct (Req_EM_T 0 0) as [_|E]; [|lra].
  pose proof (exp_pos (-1)). destruct (Req_EM_T (exp (-1)) 0) as [E|_]; [lra|]. rewrite ln_1, ln_exp. change 2.30258509299404 with use_scale.
  repeat f_equal; ring.
Qed.

Print Assumptions C192_law.
Print Assumptions C192_positive.
Print Assumptions C192_decreasing.
Print Assumptions C192_unbounded.
Print Assumptions C192_mean.
