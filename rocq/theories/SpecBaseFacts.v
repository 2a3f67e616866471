(** * Links between the specification vocabulary and the model primitives. *)

From Coq Require Import List ZArith QArith Bool Lia Lqa Arith.
From Verif Require Import Prelude PreludeFacts SpecBase.
Import ListNotations.

Lemma total_qsum : forall l, total l = qsum l.
Proof. induction l as [|x l IH]; [reflexivity|]. unfold total in *; simpl; rewrite IH; reflexivity. Qed.

Lemma total_nat_nsum : forall l, total_nat l = nsum l.
Proof. induction l as [|x l IH]; [reflexivity|]. unfold total_nat in *; simpl; rewrite IH; reflexivity. Qed.

Lemma at_in : forall A (l : list A) i x, at_ l i x -> In x l.
Proof. intros A l i x H; eapply nth_error_In; exact H. Qed.

Lemma in_at : forall A (l : list A) x, In x l -> exists i, at_ l i x.
Proof. intros A l x H; apply In_nth_error in H; exact H. Qed.

Lemma at_lt : forall A (l : list A) i x, at_ l i x -> (i < length l)%nat.
Proof. unfold at_; intros; apply nth_error_Some; congruence. Qed.

Lemma lt_at : forall A (l : list A) i, (i < length l)%nat -> exists x, at_ l i x.
Proof. unfold at_; intros A l i H; destruct (nth_error l i) eqn:E; eauto. apply nth_error_None in E; lia. Qed.

Lemma at_fun : forall A (l : list A) i x y, at_ l i x -> at_ l i y -> x = y.
Proof. unfold at_; intros; congruence. Qed.

Lemma nonneg_Forall : forall l, nonneg l <-> Forall (fun x => 0 <= x) l.
Proof.
  intro l; split; intro H.
  - apply Forall_forall; intros x Hx. apply in_at in Hx as [i Hi]. eapply H; eauto.
  - intros i x Hx. rewrite Forall_forall in H. apply H. eapply at_in; eauto.
Qed.

Lemma nondecreasing_cons : forall x l, nondecreasing (x :: l) -> nondecreasing l.
Proof. intros x l H i a b Ha Hb. apply (H (S i)); auto. Qed.

Lemma nondecreasing_le : forall l i j x y, nondecreasing l -> (i <= j)%nat ->
  at_ l i x -> at_ l j y -> x <= y.
Proof.
  intros l i j x y Hl Hij Hi Hj.
  revert y Hj. induction Hij as [|j Hij IH]; intros y Hj.
  - rewrite (at_fun _ _ _ _ _ Hi Hj). lra.
  - pose proof (at_lt _ _ _ _ Hj) as Hlt.
    destruct (lt_at _ l j ltac:(lia)) as [z Hz].
    specialize (IH z Hz). specialize (Hl j z y Hz Hj). lra.
Qed.

Lemma eqQ_list_refl : forall l, eqQ_list l l.
Proof. induction l; constructor; auto. reflexivity. Qed.

Lemma eqQ_list_nth : forall l m, eqQ_list l m <->
  (length l = length m /\ forall i x y, at_ l i x -> at_ m i y -> x == y).
Proof.
  intros l m; split.
  - intro H; induction H as [|x y l m Hxy H IH]; split; auto.
    + intros [|i] x y Hx; discriminate.
    + simpl; destruct IH; auto.
    + intros [|i] a b Ha Hb; simpl in *.
      * injection Ha as <-; injection Hb as <-; auto.
      * destruct IH as [_ IH]; eapply IH; eauto.
  - revert m; induction l as [|x l IH]; intros [|y m] [Hl Hn]; simpl in Hl; try discriminate; constructor.
    + apply (Hn 0%nat); reflexivity.
    + apply IH; split; [lia|]. intros i a b Ha Hb. apply (Hn (S i)); auto.
Qed.
