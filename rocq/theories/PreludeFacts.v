(** * Lemmas about the shared primitives. *)

From Coq Require Import List ZArith QArith Qround Bool Lia Lqa Arith Permutation.
From Verif Require Import Prelude.
Import ListNotations.

Lemma Qltb_lt : forall a b, Qltb a b = true <-> a < b.
Proof.
  intros a b; unfold Qltb; rewrite negb_true_iff; split; intro H.
  - apply Qnot_le_lt; intro Hle; apply Qle_bool_iff in Hle; congruence.
  - destruct (Qle_bool b a) eqn:E; auto.
    apply Qle_bool_iff in E; lra.
Qed.

Lemma Qltb_ge : forall a b, Qltb a b = false <-> b <= a.
Proof.
  intros a b; unfold Qltb; rewrite negb_false_iff; apply Qle_bool_iff.
Qed.

Lemma Qleb_le : forall a b, Qle_bool a b = true <-> a <= b.
Proof. intros; apply Qle_bool_iff. Qed.

Lemma Qleb_gt : forall a b, Qle_bool a b = false <-> b < a.
Proof.
  intros a b; split; intro H.
  - apply Qnot_le_lt; intro Hle; apply Qle_bool_iff in Hle; congruence.
  - destruct (Qle_bool a b) eqn:E; auto. apply Qle_bool_iff in E; lra.
Qed.

Lemma qsum_app : forall l m, qsum (l ++ m) == qsum l + qsum m.
Proof. induction l as [|x l IH]; intros m; simpl; [ring|rewrite IH; ring]. Qed.

Lemma qsum_nonneg : forall l, Forall (fun x => 0 <= x) l -> 0 <= qsum l.
Proof. induction 1; simpl; lra. Qed.

Lemma qsum_map_scale : forall (c : Q) l, qsum (map (fun x => x * c) l) == qsum l * c.
Proof. induction l as [|x l IH]; simpl; [ring|rewrite IH; ring]. Qed.

Lemma qsum_map_div : forall (c : Q) l, qsum (map (fun x => x / c) l) == qsum l / c.
Proof. unfold Qdiv; intros; apply qsum_map_scale. Qed.

Lemma qsum_map_add : forall A (f g : A -> Q) l,
  qsum (map (fun x => f x + g x) l) == qsum (map f l) + qsum (map g l).
Proof. induction l as [|x l IH]; simpl; [ring|rewrite IH; ring]. Qed.

Lemma qsum_ext : forall A (f g : A -> Q) l,
  (forall x, In x l -> f x == g x) -> qsum (map f l) == qsum (map g l).
Proof.
  induction l as [|x l IH]; simpl; intro H; [reflexivity|].
  rewrite IH by (intros; apply H; auto). rewrite (H x) by auto. reflexivity.
Qed.

Lemma qsum_le : forall A (f g : A -> Q) l,
  (forall x, In x l -> f x <= g x) -> qsum (map f l) <= qsum (map g l).
Proof.
  induction l as [|x l IH]; simpl; intro H; [lra|].
  assert (f x <= g x) by (apply H; auto).
  assert (qsum (map f l) <= qsum (map g l)) by (apply IH; intros; apply H; auto). lra.
Qed.

Lemma qsum_zero : forall l, Forall (fun x => x == 0) l -> qsum l == 0.
Proof. induction 1 as [|x l Hx Hl IH]; simpl; [reflexivity|]. rewrite Hx, IH; ring. Qed.

Lemma cumsum_from_length : forall l a, length (cumsum_from a l) = length l.
Proof. induction l; intros; simpl; auto. Qed.

Lemma cumsum_length : forall l, length (cumsum l) = length l.
Proof. intros; apply cumsum_from_length. Qed.

(** Entry [i] of the cumulative sums is the sum of the first [i+1] entries. *)
Lemma cumsum_from_nth : forall l a i, (i < length l)%nat ->
  exists c, nth_error (cumsum_from a l) i = Some c /\ c == a + qsum (firstn (S i) l).
Proof.
  induction l as [|x l IH]; intros a i Hi; simpl in Hi; [lia|].
  destruct i as [|i].
  - simpl. eexists; split; [reflexivity|]. simpl; ring.
  - destruct (IH (a + x) i) as [c [Hc Hq]]; [lia|].
    exists c; split; [exact Hc|]. rewrite Hq.
    change (firstn (S (S i)) (x :: l)) with (x :: firstn (S i) l). simpl qsum. ring.
Qed.

Lemma cumsum_nth : forall l i, (i < length l)%nat ->
  exists c, nth_error (cumsum l) i = Some c /\ c == qsum (firstn (S i) l).
Proof.
  intros l i Hi. destruct (cumsum_from_nth l 0 i Hi) as [c [Hc Hq]].
  exists c; split; auto. rewrite Hq; ring.
Qed.

Lemma cumsum_nth_eq : forall l i c, nth_error (cumsum l) i = Some c ->
  (i < length l)%nat /\ c == qsum (firstn (S i) l).
Proof.
  intros l i c H.
  assert (Hi : (i < length l)%nat).
  { rewrite <- (cumsum_length l). apply nth_error_Some. congruence. }
  split; auto. destruct (cumsum_nth l i Hi) as [c' [Hc' Hq]]. congruence.
Qed.

Lemma qsum_firstn_S : forall l i x, nth_error l i = Some x ->
  qsum (firstn (S i) l) == qsum (firstn i l) + x.
Proof.
  induction l as [|y l IH]; intros [|i] x H; simpl in H; try discriminate.
  - injection H as ->. simpl; ring.
  - change (firstn (S (S i)) (y :: l)) with (y :: firstn (S i) l).
    change (firstn (S i) (y :: l)) with (y :: firstn i l).
    simpl qsum. rewrite (IH i x H). ring.
Qed.

Lemma qsum_firstn_mono : forall l i j, Forall (fun x => 0 <= x) l -> (i <= j)%nat ->
  qsum (firstn i l) <= qsum (firstn j l).
Proof.
  intros l i j Hl Hij.
  replace (firstn j l) with (firstn i l ++ firstn (j - i) (skipn i l)).
  - rewrite qsum_app.
    assert (0 <= qsum (firstn (j - i) (skipn i l))); [|lra].
    apply qsum_nonneg. apply Forall_forall. intros x Hx.
    rewrite Forall_forall in Hl. apply Hl.
    rewrite <- (firstn_skipn i l). apply in_or_app; right.
    rewrite <- (firstn_skipn (j - i) (skipn i l)). apply in_or_app; left; auto.
  - rewrite <- (firstn_skipn i (firstn j l)).
    rewrite firstn_firstn. rewrite Nat.min_l by lia. f_equal.
    rewrite firstn_skipn_comm. f_equal. f_equal. lia.
Qed.

Lemma first_true_some : forall m i, first_true m = Some i ->
  nth_error m i = Some true /\ (forall j, (j < i)%nat -> nth_error m j = Some false).
Proof.
  induction m as [|b m IH]; simpl; intros i H; [discriminate|].
  destruct b.
  - injection H as <-. split; [reflexivity|intros; lia].
  - destruct (first_true m) as [k|] eqn:E; simpl in H; [|discriminate].
    injection H as <-. destruct (IH k eq_refl) as [H1 H2].
    split; [exact H1|]. intros [|j] Hj; simpl; [reflexivity|apply H2; lia].
Qed.

Lemma first_true_none : forall m, first_true m = None -> Forall (fun b => b = false) m.
Proof.
  induction m as [|b m IH]; simpl; intro H; constructor.
  - destruct b; [discriminate|reflexivity].
  - apply IH. destruct b; [discriminate|]. destruct (first_true m); simpl in H; [discriminate|reflexivity].
Qed.

Lemma searchsorted_le : forall a x, (searchsorted a x <= length a)%nat.
Proof. induction a as [|y a IH]; intros x; simpl; [lia|]. destruct (Qle_bool x y); [lia|]. specialize (IH x); lia. Qed.

Lemma searchsorted_spec : forall a x i, searchsorted a x = i ->
  (forall j y, (j < i)%nat -> nth_error a j = Some y -> y < x) /\
  (forall y, nth_error a i = Some y -> x <= y).
Proof.
  induction a as [|z a IH]; intros x i H; simpl in H.
  - subst i. split; [intros; lia|]. intros y Hy; destruct y; discriminate.
  - destruct (Qle_bool x z) eqn:E.
    + subst i. split; [intros; lia|]. simpl. intros y Hy; injection Hy as <-. apply Qleb_le; auto.
    + subst i. destruct (IH x _ eq_refl) as [H1 H2]. split.
      * intros [|j] y Hj Hy; simpl in Hy.
        -- injection Hy as <-. apply Qleb_gt; auto.
        -- apply (H1 j); auto; lia.
      * simpl. exact H2.
Qed.

Lemma searchsorted_unique : forall a x i,
  (i <= length a)%nat ->
  (forall j y, (j < i)%nat -> nth_error a j = Some y -> y < x) ->
  (forall y, nth_error a i = Some y -> x <= y) ->
  searchsorted a x = i.
Proof.
  induction a as [|z a IH]; intros x i Hi H1 H2; simpl in *; [lia|].
  destruct (Qle_bool x z) eqn:E.
  - destruct i as [|i]; [reflexivity|].
    assert (z < x) by (apply (H1 0%nat); [lia|reflexivity]).
    apply Qleb_le in E. lra.
  - apply Qleb_gt in E. destruct i as [|i].
    + assert (x <= z) by (apply H2; reflexivity). lra.
    + f_equal. apply IH; [lia| |].
      * intros j y Hj Hy. apply (H1 (S j)); [lia|exact Hy].
      * exact H2.
Qed.

Lemma count_nat_le_length : forall x l, (count_nat x l <= length l)%nat.
Proof. induction l; simpl; auto. destruct (x =? a)%nat; lia. Qed.

Lemma count_nat_app : forall x l m, count_nat x (l ++ m) = (count_nat x l + count_nat x m)%nat.
Proof. induction l; intros; simpl; auto. rewrite IHl. destruct (x =? a)%nat; lia. Qed.

Lemma list_max_nat_ge : forall l x, In x l -> (x <= list_max_nat l)%nat.
Proof. induction l as [|y l IH]; simpl; intros x H; [tauto|]. destruct H as [->|H]; [lia|]. apply IH in H; lia. Qed.

Fixpoint nsum (l : list nat) : nat := match l with [] => 0%nat | x :: t => (x + nsum t)%nat end.

Lemma nsum_app : forall l m, nsum (l ++ m) = (nsum l + nsum m)%nat.
Proof. induction l; intros; simpl; auto. rewrite IHl; lia. Qed.

Lemma nsum_map_ext : forall A (f g : A -> nat) l, (forall x, In x l -> f x = g x) ->
  nsum (map f l) = nsum (map g l).
Proof.
  induction l as [|a l IH]; intros H; [reflexivity|]. simpl. rewrite IH, (H a); [reflexivity|left; reflexivity|].
  intros; apply H; right; assumption.
Qed.

Lemma nsum_map_add : forall A (f g : A -> nat) l,
  nsum (map (fun x => f x + g x)%nat l) = (nsum (map f l) + nsum (map g l))%nat.
Proof. induction l; simpl; auto. rewrite IHl; lia. Qed.

Lemma nsum_indicator : forall x n s,
  nsum (map (fun i => if Nat.eqb i x then 1 else 0)%nat (seq s n)) =
  if (Nat.leb s x && Nat.ltb x (s + n))%bool then 1%nat else 0%nat.
Proof.
  induction n as [|n IH]; intros s; simpl.
  - destruct (s <=? x)%nat eqn:E1; simpl; [|reflexivity].
    destruct (x <? s + 0)%nat eqn:E2; [|reflexivity].
    apply Nat.leb_le in E1; apply Nat.ltb_lt in E2; lia.
  - rewrite IH.
    destruct (s =? x)%nat eqn:E; destruct (S s <=? x)%nat eqn:E1; destruct (s <=? x)%nat eqn:E2;
    destruct (x <? S s + n)%nat eqn:E3; destruct (x <? s + S n)%nat eqn:E4; simpl; auto;
    repeat match goal with
    | H : (_ =? _)%nat = true |- _ => apply Nat.eqb_eq in H
    | H : (_ =? _)%nat = false |- _ => apply Nat.eqb_neq in H
    | H : (_ <=? _)%nat = true |- _ => apply Nat.leb_le in H
    | H : (_ <=? _)%nat = false |- _ => apply Nat.leb_gt in H
    | H : (_ <? _)%nat = true |- _ => apply Nat.ltb_lt in H
    | H : (_ <? _)%nat = false |- _ => apply Nat.ltb_ge in H
    end; lia.
Qed.

Lemma count_sum : forall l n, (forall x, In x l -> (x < n)%nat) ->
  nsum (map (fun i => count_nat i l) (seq 0 n)) = length l.
Proof.
  induction l as [|x l IH]; intros n H.
  - simpl. clear H. induction (seq 0 n); simpl; auto.
  - simpl length. rewrite <- (IH n) by (intros; apply H; right; auto).
    rewrite (nsum_map_ext _ _ (fun i => (if Nat.eqb i x then 1 else 0) + count_nat i l)%nat).
    + rewrite nsum_map_add, nsum_indicator.
      assert (x < n)%nat by (apply H; left; auto).
      replace (0 <=? x)%nat with true by (symmetry; apply Nat.leb_le; lia).
      replace (x <? 0 + n)%nat with true by (symmetry; apply Nat.ltb_lt; lia).
      reflexivity.
    + intros i _; simpl. destruct (i =? x)%nat; reflexivity.
Qed.

Lemma bincount_sum : forall inds m, nsum (bincount inds m) = length inds.
Proof.
  intros inds m. unfold bincount. apply count_sum.
  intros x Hx. pose proof (list_max_nat_ge inds x Hx).
  destruct inds; [inversion Hx|]. lia.
Qed.

Lemma bincount_nth : forall inds m i c, nth_error (bincount inds m) i = Some c -> c = count_nat i inds.
Proof.
  intros inds m i c H. unfold bincount in H.
  rewrite nth_error_map in H.
  destruct (nth_error (seq 0 _) i) as [k|] eqn:E in H; simpl in H; [|discriminate].
  injection H as <-. f_equal.
  apply nth_error_nth with (d := 0%nat) in E as E'.
  assert (i < length (seq 0 (Nat.max m match inds with [] => 0%nat | _ :: _ => S (list_max_nat inds) end)))%nat.
  { apply nth_error_Some. congruence. }
  rewrite seq_length in H. rewrite seq_nth in E' by auto. simpl in E'. auto.
Qed.

Lemma bincount_length : forall inds m,
  (forall x, In x inds -> (x < m)%nat) -> length (bincount inds m) = m.
Proof.
  intros inds m H. unfold bincount. rewrite map_length, seq_length.
  destruct inds as [|x t]; [lia|].
  assert (list_max_nat (x :: t) < m)%nat; [|lia].
  assert (forall l, l <> [] -> (forall y, In y l -> (y < m)%nat) -> (list_max_nat l < m)%nat) as G.
  { clear. induction l as [|y l IH]; intros Hn Hl; [congruence|]. simpl.
    assert (y < m)%nat by (apply Hl; left; auto).
    destruct l as [|z l]; [simpl; lia|].
    assert (list_max_nat (z :: l) < m)%nat by (apply IH; [congruence|intros; apply Hl; right; auto]). lia. }
  apply G; [congruence|auto].
Qed.

Lemma map2_length : forall A B C (f : A -> B -> C) l m,
  length (map2 f l m) = Nat.min (length l) (length m).
Proof. induction l; intros [|y m]; simpl; auto. Qed.

Lemma map2_nth : forall A B C (f : A -> B -> C) l m i,
  nth_error (map2 f l m) i =
  match nth_error l i, nth_error m i with Some x, Some y => Some (f x y) | _, _ => None end.
Proof.
  induction l as [|x l IH]; intros m i.
  - simpl. destruct i; reflexivity.
  - destruct m as [|y m]; simpl.
    + destruct i; simpl; [reflexivity|]. destruct (nth_error l i); reflexivity.
    + destruct i; simpl; auto.
Qed.

Lemma mapM_ok : forall A B (f : A -> result B) l out, mapM f l = Ok out ->
  length out = length l /\
  (forall k x, nth_error l k = Some x -> exists y, nth_error out k = Some y /\ f x = Ok y).
Proof.
  induction l as [|x l IH]; simpl; intros out H.
  - injection H as <-. split; auto. intros [|k] x Hx; discriminate.
  - destruct (f x) as [y|e] eqn:Ef; simpl in H; [|discriminate].
    destruct (mapM f l) as [ys|e] eqn:Em; simpl in H; [|discriminate].
    injection H as <-. destruct (IH ys eq_refl) as [Hl Hn]. split; [simpl; auto|].
    intros [|k] z Hz; simpl in Hz.
    + injection Hz as <-. exists y; auto.
    + simpl. apply Hn; auto.
Qed.

Lemma mapM_total : forall A B (f : A -> result B) l,
  (forall x, In x l -> exists y, f x = Ok y) -> exists out, mapM f l = Ok out.
Proof.
  induction l as [|x l IH]; simpl; intro H; [eauto|].
  destruct (H x) as [y Hy]; auto. rewrite Hy; simpl.
  destruct IH as [ys Hys]; [intros; apply H; auto|]. rewrite Hys; simpl; eauto.
Qed.

(** Dictionaries. *)
Section DictFacts.
  Variables (K V : Type) (eqb : K -> K -> bool).
  Hypothesis eqb_eq : forall a b, eqb a b = true <-> a = b.

  Lemma eqb_refl' : forall a, eqb a a = true.
  Proof. intros; apply eqb_eq; auto. Qed.

  Lemma eqb_neq' : forall a b, a <> b -> eqb a b = false.
  Proof. intros a b H; destruct (eqb a b) eqn:E; auto. apply eqb_eq in E; congruence. Qed.

  Lemma dget_dset_same : forall (d : list (K * V)) k v, dget eqb (dset eqb d k v) k = Some v.
  Proof.
    induction d as [|[k' v'] d IH]; intros k v; simpl.
    - rewrite eqb_refl'; auto.
    - destruct (eqb k k') eqn:E; simpl; rewrite E; auto.
  Qed.

  Lemma dget_dset_other : forall (d : list (K * V)) k v k', k' <> k ->
    dget eqb (dset eqb d k v) k' = dget eqb d k'.
  Proof.
    induction d as [|[k1 v1] d IH]; intros k v k' Hne; simpl.
    - rewrite eqb_neq'; auto.
    - destruct (eqb k k1) eqn:E; simpl.
      + apply eqb_eq in E; subst k1. rewrite (eqb_neq' k' k) by auto. reflexivity.
      + rewrite IH; auto.
  Qed.

  Lemma dget_in : forall (d : list (K * V)) k v, dget eqb d k = Some v -> In (k, v) d.
  Proof.
    induction d as [|[k1 v1] d IH]; simpl; intros k v H; [discriminate|].
    destruct (eqb k k1) eqn:E.
    - apply eqb_eq in E; subst. injection H as <-. auto.
    - right; auto.
  Qed.

  Lemma dset_keys : forall (d : list (K * V)) k v, dget eqb d k <> None ->
    map fst (dset eqb d k v) = map fst d.
  Proof.
    induction d as [|[k1 v1] d IH]; simpl; intros k v H; [congruence|].
    destruct (eqb k k1) eqn:E; simpl; auto. rewrite IH; auto.
  Qed.

  Lemma dget_none_notin : forall (d : list (K * V)) k, dget eqb d k = None -> ~ In k (map fst d).
  Proof.
    induction d as [|[k1 v1] d IH]; simpl; intros k H; [auto|].
    destruct (eqb k k1) eqn:E; [discriminate|].
    intros [->|Hin]; [rewrite eqb_refl' in E; discriminate|]. apply (IH k); auto.
  Qed.

  Lemma dget_notin : forall (d : list (K * V)) k, ~ In k (map fst d) -> dget eqb d k = None.
  Proof.
    induction d as [|[k1 v1] d IH]; simpl; intros k H; [auto|].
    rewrite eqb_neq' by (intro Heq; apply H; left; symmetry; exact Heq). apply IH; intro Hin; apply H; right; exact Hin.
  Qed.

  Lemma dget_ddel_other : forall (d : list (K * V)) k k', k' <> k ->
    dget eqb (ddel eqb d k) k' = dget eqb d k'.
  Proof.
    induction d as [|[k1 v1] d IH]; intros k k' Hne; simpl; auto.
    destruct (eqb k k1) eqn:E; simpl.
    - apply eqb_eq in E; subst k1. rewrite (eqb_neq' k' k) by auto. reflexivity.
    - rewrite IH; auto.
  Qed.

  Lemma dget_ddel_same : forall (d : list (K * V)) k, NoDup (map fst d) ->
    dget eqb (ddel eqb d k) k = None.
  Proof.
    induction d as [|[k1 v1] d IH]; intros k Hnd; simpl; auto.
    simpl in Hnd. inversion Hnd as [|? ? Hni Hnd']; subst.
    destruct (eqb k k1) eqn:E; simpl.
    - apply eqb_eq in E; subst k1. apply dget_notin; auto.
    - rewrite E. auto.
  Qed.
End DictFacts.
