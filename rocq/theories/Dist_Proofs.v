(** * Proofs about distances of arrays. *)

From Coq Require Import List Reals Arith Lia Lra Permutation.
From Verif Require Import Prelude PreludeFacts SpecBase SpecBaseFacts Dist_Model Dist_Spec.
Import ListNotations.
Local Open Scope R_scope.

(** ** Sums *)

Lemma rsum_app : forall l m, rsum (l ++ m) = rsum l + rsum m.
Proof. unfold rsum. induction l as [|x l IH]; intro m; simpl; [ring|]. rewrite IH. ring. Qed.

Lemma rsum_plus : forall A (f g : A -> R) l, rsum (map (fun x => f x + g x) l) = rsum (map f l) + rsum (map g l).
Proof. unfold rsum. induction l as [|x l IH]; simpl; [ring|]. rewrite IH. ring. Qed.

Lemma rsum_scale : forall A c (f : A -> R) l, rsum (map (fun x => c * f x) l) = c * rsum (map f l).
Proof. unfold rsum. induction l as [|x l IH]; simpl; [ring|]. rewrite IH. ring. Qed.

Lemma rsum_perm : forall l m, Permutation l m -> rsum l = rsum m.
Proof. unfold rsum. induction 1; simpl; lra. Qed.

Lemma sum_to_ext : forall n f g, (forall i, (i < n)%nat -> f i = g i) -> sum_to n f = sum_to n g.
Proof. induction n as [|n IH]; intros f g H; simpl; auto. rewrite (IH f g), (H n) by auto. reflexivity. Qed.

Lemma sum_to_shift : forall n f, sum_to (S n) f = f O + sum_to n (fun i => f (S i)).
Proof. induction n as [|n IH]; intro f; [simpl; ring|]. cbn [sum_to] in *. rewrite IH. ring. Qed.

Lemma rsum_to : forall A (f : A -> R) (d : A) l, rsum (map f l) = sum_to (length l) (fun i => f (nth i l d)).
Proof. induction l as [|x l IH]; [reflexivity|]. cbn [length]. rewrite sum_to_shift. cbn [map nth]. unfold rsum in *. simpl. rewrite IH. reflexivity. Qed.

(** ** Squares *)

Definition ssq (d : list R) : R := rsum (map (fun v => v ^ 2) d).
Definition diff (a b : list R) : list R := map2 Rminus a b.

Lemma ssq_nonneg : forall d, 0 <= ssq d.
Proof.
  induction d as [|x d IH]; [unfold ssq, rsum; simpl; lra|]. change (ssq (x :: d)) with (x ^ 2 + ssq d). pose proof (pow2_ge_0 x). lra.
Qed.

Lemma ssq_zero : forall d, ssq d = 0 <-> forall v, In v d -> v = 0.
Proof.
  induction d as [|x d IH]; [split; [intros _ v []|reflexivity]|].
  change (ssq (x :: d)) with (x ^ 2 + ssq d). pose proof (ssq_nonneg d). split.
  - intros E v Hv. assert (x = 0) by nra. assert (ssq d = 0) by nra. destruct Hv as [<-|Hv]; auto. apply IH; auto.
  - intro Hz. rewrite (Hz x) by (left; auto). rewrite (proj2 IH); [ring|]. intros; apply Hz; right; auto.
Qed.

Lemma map2_sq : forall a b, rsum (map2 (fun x y => (x - y) ^ 2) a b) = ssq (diff a b).
Proof. unfold ssq, diff, rsum. induction a as [|x a IH]; intros [|y b]; simpl; auto. rewrite IH. reflexivity. Qed.

Lemma euclid_ssq : forall a b, euclid a b = sqrt (ssq (diff a b)).
Proof. intros. unfold euclid. rewrite map2_sq. reflexivity. Qed.

Lemma diff_cons : forall x a y b, ssq (diff (x :: a) (y :: b)) = (x - y) ^ 2 + ssq (diff a b).
Proof. reflexivity. Qed.

Lemma diff_sym : forall a b, ssq (diff a b) = ssq (diff b a).
Proof.
  induction a as [|x a IH]; intros [|y b]; try reflexivity. rewrite !diff_cons, IH. ring.
Qed.

Lemma diff_self : forall a, ssq (diff a a) = 0.
Proof. induction a as [|x a IH]; [reflexivity|]. rewrite diff_cons, IH. ring. Qed.

Lemma diff_zero : forall a b, length a = length b -> ssq (diff a b) = 0 -> a = b.
Proof.
  induction a as [|x a IH]; intros [|y b] L H; try discriminate; auto.
  change (ssq (diff (x :: a) (y :: b))) with ((x - y) ^ 2 + ssq (diff a b)) in H. pose proof (ssq_nonneg (diff a b)).
  assert (x - y = 0) by nra. f_equal; [lra|]. apply IH; [simpl in L; lia|nra].
Qed.

Definition dot (a b : list R) : R := rsum (map2 Rmult a b).

Lemma cauchy : forall a b, length a = length b -> Rabs (dot a b) <= sqrt (ssq a) * sqrt (ssq b).
Proof.
  induction a as [|x a IH]; intros [|y b] L; try discriminate.
  - unfold dot, ssq, rsum; simpl. rewrite Rabs_R0, sqrt_0. lra.
  - change (dot (x :: a) (y :: b)) with (x * y + dot a b). change (ssq (x :: a)) with (x ^ 2 + ssq a). change (ssq (y :: b)) with (y ^ 2 + ssq b).
    assert (H : Rabs (dot a b) <= sqrt (ssq a) * sqrt (ssq b)) by (apply IH; simpl in L; lia).
    pose proof (ssq_nonneg a) as Ha. pose proof (ssq_nonneg b) as Hb.
    pose proof (sqrt_pos (ssq a)) as Pa. pose proof (sqrt_pos (ssq b)) as Pb.
    pose proof (sqrt_sqrt _ Ha) as Ea. pose proof (sqrt_sqrt _ Hb) as Eb.
    set (A := sqrt (ssq a)) in *. set (B := sqrt (ssq b)) in *. rewrite <- Ea, <- Eb.
    rewrite <- sqrt_mult by nra. apply Rle_trans with (Rabs x * Rabs y + A * B).
    + eapply Rle_trans; [apply Rabs_triang|]. rewrite Rabs_mult. lra.
    + pose proof (Rabs_pos x) as H0. pose proof (Rabs_pos y) as H1. assert (X : x ^ 2 = Rabs x * Rabs x) by (rewrite <- Rabs_mult, Rabs_right; nra).
      assert (Y : y ^ 2 = Rabs y * Rabs y) by (rewrite <- Rabs_mult, Rabs_right; nra). rewrite X, Y.
      set (u := Rabs x) in *. set (v := Rabs y) in *. clear - Pa Pb H0 H1.
      assert (0 <= u * v) by (apply Rmult_le_pos; auto). assert (0 <= A * B) by (apply Rmult_le_pos; auto).
      rewrite <- (sqrt_square (u * v + A * B)) by lra. apply sqrt_le_1_alt. pose proof (pow2_ge_0 (u * B - A * v)). lra.
Qed.

Lemma ssq_plus : forall a b, length a = length b -> ssq (map2 Rplus a b) = ssq a + 2 * dot a b + ssq b.
Proof.
  induction a as [|x a IH]; intros [|y b] L; try discriminate; [unfold ssq, dot, rsum; simpl; ring|].
  cbn [map2]. change (ssq (x + y :: map2 Rplus a b)) with ((x + y) ^ 2 + ssq (map2 Rplus a b)).
  change (ssq (x :: a)) with (x ^ 2 + ssq a). change (ssq (y :: b)) with (y ^ 2 + ssq b). change (dot (x :: a) (y :: b)) with (x * y + dot a b).
  rewrite IH by (simpl in L; lia). ring.
Qed.

Lemma minkowski : forall a b, length a = length b -> sqrt (ssq (map2 Rplus a b)) <= sqrt (ssq a) + sqrt (ssq b).
Proof.
  intros a b L. pose proof (cauchy a b L) as C. pose proof (ssq_nonneg a) as Ha. pose proof (ssq_nonneg b) as Hb.
  pose proof (sqrt_pos (ssq a)). pose proof (sqrt_pos (ssq b)). pose proof (sqrt_sqrt _ Ha). pose proof (sqrt_sqrt _ Hb).
  rewrite <- (sqrt_square (sqrt (ssq a) + sqrt (ssq b))) by lra. apply sqrt_le_1_alt. rewrite ssq_plus by auto.
  pose proof (Rle_abs (dot a b)). nra.
Qed.

Lemma diff_split : forall a b c, length a = length b -> length b = length c -> diff a c = map2 Rplus (diff a b) (diff b c).
Proof.
  unfold diff. induction a as [|x a IH]; intros [|y b] [|z c] L1 L2; try discriminate; auto. cbn [map2]. rewrite (IH b c) by (simpl in *; lia). f_equal. ring.
Qed.

Lemma diff_length : forall a b, length a = length b -> length (diff a b) = length a.
Proof. unfold diff. induction a as [|x a IH]; intros [|y b] L; try discriminate; auto. simpl. f_equal. apply IH. simpl in L. lia. Qed.

Lemma euclid_triangle : forall a b c, length a = length b -> length b = length c -> euclid a c <= euclid a b + euclid b c.
Proof.
  intros a b c L1 L2. rewrite !euclid_ssq. rewrite (diff_split a b c) by auto. apply minkowski.
  rewrite !diff_length by congruence. auto.
Qed.

Lemma ssq_scale : forall c a b, ssq (diff (map (Rmult c) a) (map (Rmult c) b)) = c ^ 2 * ssq (diff a b).
Proof. induction a as [|x a IH]; intros [|y b]; try (unfold ssq, diff, rsum; simpl; ring). cbn [map]. rewrite !diff_cons, IH. ring. Qed.

Lemma sqrt_scale : forall c x, 0 <= x -> sqrt (c ^ 2 * x) = Rabs c * sqrt x.
Proof.
  intros c x H. replace (c ^ 2) with (Rabs c * Rabs c) by (rewrite <- Rabs_mult, Rabs_right; nra).
  pose proof (Rabs_pos c). rewrite sqrt_mult by nra. rewrite sqrt_square by auto. reflexivity.
Qed.

(** ** Tables of the same shape *)

Lemma map2_app : forall A B C (f : A -> B -> C) a a' b b', length a = length b -> map2 f (a ++ a') (b ++ b') = map2 f a b ++ map2 f a' b'.
Proof. induction a as [|x a IH]; intros a' [|y b] b' L; try discriminate; auto. simpl. rewrite IH by (simpl in L; lia). reflexivity. Qed.

Lemma tbl_cons : forall A n m (r : list A) x, tbl (S n) m (r :: x) <-> length r = m /\ tbl n m x.
Proof.
  intros. unfold tbl. split.
  - intros [L H]. split; [apply (H O r); reflexivity|]. split; [simpl in L; lia|]. intros i r' Hi. apply (H (S i) r'). exact Hi.
  - intros [Lr [L H]]. split; [simpl; lia|]. intros [|i] r' Hi; [unfold at_ in Hi; simpl in Hi; congruence|]. apply (H i). exact Hi.
Qed.

Lemma bcast_same : forall A B C (f : A -> B -> C) x y, length x = length y -> bcast f x y = Ok (map2 f x y).
Proof. intros. unfold bcast. rewrite H, Nat.eqb_refl. reflexivity. Qed.

Lemma bcast2_same : forall A B C (f : A -> B -> C) n m x y, tbl n m x -> tbl n m y ->
  exists s, bcast2 f x y = Ok s /\ concat s = map2 f (concat x) (concat y) /\ length (concat x) = (n * m)%nat /\ length (concat y) = (n * m)%nat.
Proof.
  intros A B C f n m x y Hx Hy. unfold bcast2. rewrite bcast_same by (destruct Hx, Hy; congruence). cbn [bind].
  revert x y Hx Hy. induction n as [|n IH]; intros x y Hx Hy.
  - destruct x as [|r x]; [|destruct Hx; discriminate]. destruct y; [|destruct Hy; discriminate]. exists []. auto.
  - destruct x as [|r x]; [destruct Hx; discriminate|]. destruct y as [|r' y]; [destruct Hy; discriminate|].
    apply tbl_cons in Hx, Hy. destruct Hx as [Lr Hx], Hy as [Lr' Hy]. destruct (IH x y Hx Hy) as (s & E & Es & L1 & L2).
    cbn [map2 mapM]. rewrite bcast_same by congruence. cbn [bind]. rewrite E. cbn [bind].
    eexists. split; [reflexivity|]. cbn [concat]. rewrite map2_app, Es, !app_length by congruence. split; auto. lia.
Qed.

Lemma rmse_same : forall n m x y, tbl n m x -> tbl n m y -> (0 < n)%nat -> (0 < m)%nat ->
  rmse x y = Ok (Some (sqrt (ssq (diff (concat x) (concat y)) / INR (n * m)))).
Proof.
  intros n m x y Hx Hy Hn Hm. unfold rmse. destruct (bcast2_same _ _ _ (fun a b => (a - b) ^ 2) n m x y Hx Hy) as (s & E & Es & L1 & L2).
  rewrite E. cbn [bind]. rewrite Es. unfold rmean. assert (L : length (map2 (fun a b => (a - b) ^ 2) (concat x) (concat y)) = (n * m)%nat).
  { rewrite <- L1. rewrite <- L1 in L2. clear - L2. revert L2. generalize (concat y). induction (concat x) as [|a l IH]; intros [|b l'] L; try discriminate; auto.
    simpl. f_equal. apply IH. simpl in L. lia. }
  destruct (map2 _ (concat x) (concat y)) as [|a l] eqn:El; [simpl in L; nia|]. rewrite <- El, map2_sq. rewrite El, L. reflexivity.
Qed.

Lemma INR_pos : forall n m, (0 < n)%nat -> (0 < m)%nat -> 0 < INR (n * m).
Proof. intros. apply lt_0_INR. nia. Qed.

Lemma sum_to_ssq : forall a b m, length a = m -> length b = m -> sum_to m (fun j => (num a j - num b j) ^ 2) = ssq (diff a b).
Proof.
  induction a as [|x a IH]; intros [|y b] m La Lb; simpl in La, Lb; subst m; try discriminate; [reflexivity|].
  rewrite sum_to_shift. change (ssq (diff (x :: a) (y :: b))) with ((x - y) ^ 2 + ssq (diff a b)). unfold num in *. cbn [nth].
  f_equal. apply IH; lia.
Qed.

Lemma ssq_app : forall d e, ssq (d ++ e) = ssq d + ssq e.
Proof. intros. unfold ssq. rewrite map_app, rsum_app. reflexivity. Qed.

Lemma sum_to_tables : forall n m x y, tbl n m x -> tbl n m y ->
  sum_to n (fun i => sum_to m (fun j => (val x i j - val y i j) ^ 2)) = ssq (diff (concat x) (concat y)).
Proof.
  induction n as [|n IH]; intros m x y Hx Hy.
  - destruct x as [|r x]; [|destruct Hx; discriminate]. reflexivity.
  - destruct x as [|r x]; [destruct Hx; discriminate|]. destruct y as [|r' y]; [destruct Hy; discriminate|].
    apply tbl_cons in Hx, Hy. destruct Hx as [Lr Hx], Hy as [Lr' Hy]. rewrite sum_to_shift. cbn [concat]. unfold diff. rewrite map2_app by congruence. rewrite ssq_app.
    f_equal; [apply sum_to_ssq; auto|]. fold (diff (concat x) (concat y)). rewrite <- (IH m x y) by auto. reflexivity.
Qed.

(** ** RMSE *)

Lemma rmse_value : forall n m x y, tbl n m x -> tbl n m y -> (0 < n)%nat -> (0 < m)%nat ->
  exists r, rmse x y = Ok (Some r) /\ 0 <= r /\
    r * r * INR (n * m) = sum_to n (fun i => sum_to m (fun j => (val x i j - val y i j) ^ 2)).
Proof.
  intros n m x y Hx Hy Hn Hm. eexists. split; [apply (rmse_same n m); auto|]. split; [apply sqrt_pos|].
  pose proof (INR_pos n m Hn Hm). rewrite sqrt_sqrt.
  - rewrite (sum_to_tables n m) by auto. field. lra.
  - apply Rmult_le_pos; [apply ssq_nonneg|]. apply Rlt_le, Rinv_0_lt_compat. auto.
Qed.

Lemma concat_inj : forall A n m (x y : list (list A)), tbl n m x -> tbl n m y -> concat x = concat y -> x = y.
Proof.
  induction n as [|n IH]; intros m x y Hx Hy E.
  - destruct x; [|destruct Hx; discriminate]. destruct y; [auto|destruct Hy; discriminate].
  - destruct x as [|r x]; [destruct Hx; discriminate|]. destruct y as [|r' y]; [destruct Hy; discriminate|].
    apply tbl_cons in Hx, Hy. destruct Hx as [Lr Hx], Hy as [Lr' Hy]. cbn [concat] in E.
    assert (r = r' /\ concat x = concat y) as [-> E'].
    { clear - E Lr Lr'. subst m. symmetry in Lr'. revert r' Lr' E. induction r as [|a r IH]; intros [|b r'] L E; try discriminate; auto.
      simpl in E. injection E as -> E. destruct (IH r') as [-> ?]; auto. }
    f_equal. eapply IH; eauto.
Qed.

Lemma sqrt_zero : forall x, 0 <= x -> (sqrt x = 0 <-> x = 0).
Proof. intros x H. split; [apply sqrt_eq_0; auto|intros ->; apply sqrt_0]. Qed.

Lemma rmse_zero : forall n m x y, tbl n m x -> tbl n m y -> (0 < n)%nat -> (0 < m)%nat -> (rmse x y = Ok (Some 0) <-> x = y).
Proof.
  intros n m x y Hx Hy Hn Hm. rewrite (rmse_same n m) by auto. pose proof (INR_pos n m Hn Hm) as P.
  assert (N : 0 <= ssq (diff (concat x) (concat y)) / INR (n * m)) by (apply Rmult_le_pos; [apply ssq_nonneg|apply Rlt_le, Rinv_0_lt_compat; auto]).
  split.
  - intro E. injection E as E. apply sqrt_eq_0 in E; auto. apply (concat_inj _ n m); auto.
    apply diff_zero; [|apply Rmult_integral in E; destruct E as [E|E]; auto; exfalso; revert E; apply Rinv_neq_0_compat; lra].
    destruct (bcast2_same _ _ _ (fun a b => (a - b) ^ 2) n m x y Hx Hy) as (_ & _ & _ & L1 & L2). congruence.
  - intros ->. rewrite diff_self. do 2 f_equal. unfold Rdiv. rewrite Rmult_0_l. apply sqrt_0.
Qed.

Lemma bcast_flip : forall A B C (f : A -> B -> C) g xs ys, (forall a b, f a b = g b a) -> bcast f xs ys = bcast g ys xs.
Proof.
  intros A B C f g xs ys H. unfold bcast. rewrite (Nat.eqb_sym (length ys)). destruct (Nat.eqb_spec (length xs) (length ys)) as [E|E].
  - f_equal. revert ys E. induction xs as [|x xs IH]; intros [|y ys] E; try discriminate; auto. simpl. rewrite H, IH by (simpl in E; lia). reflexivity.
  - destruct xs as [|x [|x' xs]], ys as [|y [|y' ys]]; simpl in E; try (exfalso; lia); cbn; rewrite ?H; try reflexivity.
    + f_equal. f_equal. f_equal. apply map_ext. auto.
    + f_equal. f_equal. f_equal. apply map_ext. auto.
Qed.

Lemma rmse_symmetric : forall x y, rmse x y = rmse y x.
Proof.
  intros x y. unfold rmse, bcast2. rewrite (bcast_flip _ _ _ (bcast (fun a b => (a - b) ^ 2)) (bcast (fun a b => (a - b) ^ 2)) x y); [reflexivity|].
  intros a b. apply bcast_flip. intros; ring.
Qed.

Lemma sqrt_div_le : forall a b c N, 0 < N -> 0 <= a -> 0 <= b -> 0 <= c -> sqrt a <= sqrt b + sqrt c -> sqrt (a / N) <= sqrt (b / N) + sqrt (c / N).
Proof.
  intros a b c N HN Ha Hb Hc H. rewrite !sqrt_div by auto. pose proof (sqrt_lt_R0 N HN) as P. apply Rmult_le_reg_r with (sqrt N); auto.
  replace (sqrt a / sqrt N * sqrt N) with (sqrt a) by (field; lra).
  replace ((sqrt b / sqrt N + sqrt c / sqrt N) * sqrt N) with (sqrt b + sqrt c) by (field; lra). auto.
Qed.

Lemma rmse_triangle : forall n m x y z a b c, tbl n m x -> tbl n m y -> tbl n m z -> (0 < n)%nat -> (0 < m)%nat ->
  rmse x z = Ok (Some a) -> rmse x y = Ok (Some b) -> rmse y z = Ok (Some c) -> a <= b + c.
Proof.
  intros n m x y z a b c Hx Hy Hz Hn Hm. rewrite !(rmse_same n m) by auto. intros E1 E2 E3. injection E1 as <-. injection E2 as <-. injection E3 as <-.
  apply sqrt_div_le; try apply ssq_nonneg; [apply INR_pos; auto|]. rewrite <- !euclid_ssq.
  destruct (bcast2_same _ _ _ (fun a b => (a - b) ^ 2) n m x y Hx Hy) as (_ & _ & _ & L1 & L2).
  destruct (bcast2_same _ _ _ (fun a b => (a - b) ^ 2) n m x z Hx Hz) as (_ & _ & _ & _ & L3).
  apply euclid_triangle; congruence.
Qed.

Lemma entry_val : forall n m x i j v, tbl n m x -> entry x i j v -> (i < n)%nat /\ (j < m)%nat /\ val x i j = v.
Proof.
  intros n m x i j v [L H] (r & H1 & H2). pose proof (at_lt _ _ _ _ H1). pose proof (at_lt _ _ _ _ H2). rewrite (H _ _ H1) in *.
  split; [lia|]. split; [lia|]. unfold val, num. rewrite (nth_error_nth _ _ _ H1). apply nth_error_nth. exact H2.
Qed.

Lemma val_entry : forall n m x i j, tbl n m x -> (i < n)%nat -> (j < m)%nat -> entry x i j (val x i j).
Proof.
  intros n m x i j [L H] Hi Hj. destruct (nth_error x i) as [r|] eqn:E; [|apply nth_error_None in E; lia].
  exists r. split; [exact E|]. unfold val, num. rewrite (nth_error_nth _ _ _ E). apply nth_error_nth'. rewrite (H i r E). auto.
Qed.

Lemma shifted_val : forall n m x z y i j, tbl n m x -> tbl n m z -> tbl n m y -> shifted x z y -> (i < n)%nat -> (j < m)%nat ->
  val y i j = val x i j + val z i j.
Proof.
  intros n m x z y i j Hx Hz Hy S Hi Hj. apply (entry_val n m y i j _ Hy). apply S. exists (val x i j), (val z i j). split; [apply (val_entry n m); auto|]. split; [apply (val_entry n m); auto|reflexivity].
Qed.

Lemma scaled_val : forall n m c x y i j, tbl n m x -> tbl n m y -> scaled c x y -> (i < n)%nat -> (j < m)%nat -> val y i j = c * val x i j.
Proof.
  intros n m c x y i j Hx Hy S Hi Hj. apply (entry_val n m y i j _ Hy). apply S. exists (val x i j). split; [apply (val_entry n m); auto|reflexivity].
Qed.

Lemma rmse_shift : forall n m x y z x' y', tbl n m x -> tbl n m y -> tbl n m z -> tbl n m x' -> tbl n m y' -> (0 < n)%nat -> (0 < m)%nat ->
  shifted x z x' -> shifted y z y' -> rmse x' y' = rmse x y.
Proof.
  intros n m x y z x' y' Hx Hy Hz Hx' Hy' Hn Hm S1 S2. rewrite !(rmse_same n m) by auto. rewrite <- !(sum_to_tables n m) by auto. do 4 f_equal.
  apply sum_to_ext. intros i Hi. apply sum_to_ext. intros j Hj.
  rewrite (shifted_val n m x z x') by auto. rewrite (shifted_val n m y z y') by auto. ring.
Qed.

Lemma sum_to_scale : forall n c f, sum_to n (fun i => c * f i) = c * sum_to n f.
Proof. induction n as [|n IH]; intros c f; simpl; [ring|]. rewrite IH. ring. Qed.

Lemma rmse_scale : forall n m c x y x' y' r, tbl n m x -> tbl n m y -> tbl n m x' -> tbl n m y' -> (0 < n)%nat -> (0 < m)%nat ->
  scaled c x x' -> scaled c y y' -> rmse x y = Ok (Some r) -> rmse x' y' = Ok (Some (Rabs c * r)).
Proof.
  intros n m c x y x' y' r Hx Hy Hx' Hy' Hn Hm S1 S2. rewrite !(rmse_same n m) by auto.
  intro E. injection E as <-. do 2 f_equal. pose proof (INR_pos n m Hn Hm) as P.
  assert (N : 0 <= ssq (diff (concat x) (concat y)) / INR (n * m)).
  { unfold Rdiv. apply Rmult_le_pos; [apply ssq_nonneg|apply Rlt_le, Rinv_0_lt_compat; auto]. }
  rewrite <- (sqrt_scale c _ N). f_equal. unfold Rdiv. rewrite <- Rmult_assoc. f_equal.
  rewrite <- !(sum_to_tables n m) by auto. rewrite <- sum_to_scale. apply sum_to_ext. intros i Hi. rewrite <- sum_to_scale. apply sum_to_ext. intros j Hj.
  rewrite (scaled_val n m c x x') by auto. rewrite (scaled_val n m c y y') by auto. ring.
Qed.

Lemma sum_to_le : forall n f b, (forall i, (i < n)%nat -> f i <= b) -> sum_to n f <= INR n * b.
Proof.
  induction n as [|n IH]; intros f b H; [simpl; lra|]. cbn [sum_to]. rewrite S_INR. specialize (IH f b (fun i Hi => H i (Nat.lt_lt_succ_r _ _ Hi))).
  pose proof (H n (Nat.lt_succ_diag_r n)). lra.
Qed.

Lemma rmse_bound : forall n m x y e r, tbl n m x -> tbl n m y -> (0 < n)%nat -> (0 < m)%nat ->
  (forall i j a b, entry x i j a -> entry y i j b -> Rabs (a - b) <= e) -> rmse x y = Ok (Some r) -> r <= e.
Proof.
  intros n m x y e r Hx Hy Hn Hm H E. destruct (rmse_value n m x y Hx Hy Hn Hm) as (r' & E' & P & V). rewrite E' in E. injection E as ->.
  assert (He : 0 <= e). { eapply Rle_trans; [apply Rabs_pos|]. apply (H 0%nat 0%nat); apply (val_entry n m); auto. }
  assert (B : sum_to n (fun i => sum_to m (fun j => (val x i j - val y i j) ^ 2)) <= INR n * (INR m * e ^ 2)).
  { apply sum_to_le. intros i Hi. apply sum_to_le. intros j Hj.
    assert (A : Rabs (val x i j - val y i j) <= e) by (apply (H i j); apply (val_entry n m); auto).
    rewrite <- (pow2_abs (val x i j - val y i j)). pose proof (Rabs_pos (val x i j - val y i j)). apply pow_incr. lra. }
  rewrite <- V, mult_INR in B. pose proof (lt_0_INR n Hn). pose proof (lt_0_INR m Hm).
  assert (Q : r * r <= e * e). { apply Rmult_le_reg_r with (INR n * INR m); [apply Rmult_lt_0_compat; auto|]. lra. }
  destruct (Rle_lt_dec r e) as [|L]; auto. exfalso. assert (e * e < r * r) by (apply Rmult_le_0_lt_compat; auto). lra.
Qed.

(** ** Shapes that clash *)

Lemma bcast_clash : forall A B C (f : A -> B -> C) xs ys, clash (length xs) (length ys) -> bcast f xs ys = Err ValueError.
Proof.
  intros A B C f xs ys (H1 & H2 & H3). unfold bcast. destruct (Nat.eqb_spec (length xs) (length ys)); [contradiction|].
  destruct xs as [|x [|x' xs]], ys as [|y [|y' ys]]; simpl in *; try reflexivity; lia.
Qed.

Lemma bcast_members : forall A B C (f : A -> B -> C) xs ys zs z, bcast f xs ys = Ok zs -> In z zs -> exists x y, In x xs /\ In y ys /\ z = f x y.
Proof.
  intros A B C f xs ys zs z. unfold bcast. destruct (Nat.eqb_spec (length xs) (length ys)) as [L|L].
  - intro E. injection E as <-. clear L. revert ys. induction xs as [|x xs IH]; intros [|y ys] H; simpl in H; try tauto.
    destruct H as [<-|H]; [exists x, y; simpl; auto|]. destruct (IH ys H) as (a & b & Ha & Hb & E). exists a, b. simpl. auto.
  - destruct xs as [|x [|x' xs]], ys as [|y [|y' ys]]; intro E; simpl in L; try discriminate; try lia; injection E as <-; intro H.
    + destruct H.
    + destruct H.
    + simpl in H. destruct H as [<-|[<-|H]]; [exists x, y; simpl; auto|exists x, y'; simpl; auto|]. apply in_map_iff in H. destruct H as (b & <- & Hb). exists x, b. simpl. auto.
    + simpl in H. destruct H as [<-|[<-|H]]; [exists x, y; simpl; auto|exists x', y; simpl; auto|]. apply in_map_iff in H. destruct H as (b & <- & Hb). exists b, y. simpl. auto.
Qed.

Lemma bcast_some : forall A B C (f : A -> B -> C) xs ys zs, bcast f xs ys = Ok zs -> xs <> [] -> ys <> [] -> zs <> [].
Proof.
  intros A B C f xs ys zs. unfold bcast. destruct (Nat.eqb_spec (length xs) (length ys)) as [L|L]; intro E.
  - injection E as <-. destruct xs, ys; simpl in *; congruence.
  - destruct xs as [|x [|x' xs]], ys as [|y [|y' ys]]; simpl in L; try discriminate; try lia; injection E as <-; simpl; congruence.
Qed.

Lemma mapM_err : forall A B (f : A -> result B) l e, l <> [] -> (forall x, In x l -> f x = Err e) -> mapM f l = Err e.
Proof. intros A B f [|x l] e Hne H; [congruence|]. simpl. rewrite (H x) by (left; auto). reflexivity. Qed.

Lemma rmse_refused : forall n m n' m' x y, tbl n m x -> tbl n' m' y -> (0 < n)%nat -> (0 < n')%nat -> clash n n' \/ clash m m' -> rmse x y = Err ValueError.
Proof.
  intros n m n' m' x y [Lx Hx] [Ly Hy] Hn Hn' H. unfold rmse, bcast2.
  destruct (bcast (bcast (fun a b => (a - b) ^ 2)) x y) as [rows|e] eqn:E.
  - destruct H as [H|H]; [rewrite bcast_clash in E by congruence; discriminate|]. cbn [bind]. rewrite (mapM_err _ _ _ _ ValueError); [reflexivity| |].
    + eapply bcast_some; [exact E| |]; [destruct x|destruct y]; simpl in *; try lia; discriminate.
    + intros r Hr. destruct (bcast_members _ _ _ _ _ _ _ _ E Hr) as (a & b & Ha & Hb & ->). apply bcast_clash.
      apply in_at in Ha, Hb. destruct Ha as [i Ha], Hb as [j Hb]. rewrite (Hx _ _ Ha), (Hy _ _ Hb). auto.
  - cbn [bind]. unfold bcast in E. destruct (length x =? length y)%nat; [discriminate|]. destruct x as [|x1 [|x2 x]], y as [|y1 [|y2 y]]; congruence.
Qed.

(** ** Similarity *)

Lemma euclid_spec : forall w a b, length a = w -> length b = w ->
  0 <= euclid a b /\ euclid a b * euclid a b = sum_to w (fun k => (num a k - num b k) ^ 2).
Proof.
  intros w a b La Lb. rewrite euclid_ssq. split; [apply sqrt_pos|]. rewrite sqrt_sqrt by apply ssq_nonneg. symmetry. apply sum_to_ssq; auto.
Qed.

Lemma euclid_sym : forall a b, euclid a b = euclid b a.
Proof. intros. rewrite !euclid_ssq, diff_sym. reflexivity. Qed.

Lemma euclid_zero : forall a b, length a = length b -> (euclid a b = 0 <-> a = b).
Proof.
  intros a b L. rewrite euclid_ssq. split.
  - intro H. apply sqrt_eq_0 in H; [|apply ssq_nonneg]. apply diff_zero; auto.
  - intros ->. rewrite diff_self. apply sqrt_0.
Qed.

Lemma width_tbl : forall n m x, tbl n m x -> (0 < n)%nat -> width_of x = m.
Proof. intros n m [|r x] [L H] Hn; [simpl in L; lia|]. apply (H O r). reflexivity. Qed.

Lemma similarity_ok : forall n m w p t, tbl n w p -> tbl m w t -> (0 < n)%nat -> (0 < m)%nat ->
  profiles_similarity p t = Ok (map (fun x => map (euclid x) t) p).
Proof. intros n m w p t Hp Ht Hn Hm. unfold profiles_similarity, cdist. rewrite (width_tbl n w p), (width_tbl m w t), Nat.eqb_refl by auto. reflexivity. Qed.

Lemma similarity_entry : forall n m w p t s, tbl n w p -> tbl m w t -> (0 < n)%nat -> (0 < m)%nat -> profiles_similarity p t = Ok s ->
  tbl n m s /\ forall i j e, entry s i j e <-> exists a b, at_ p i a /\ at_ t j b /\ e = euclid a b.
Proof.
  intros n m w p t s Hp Ht Hn Hm E. rewrite (similarity_ok n m w) in E by auto. injection E as <-. split.
  - split; [rewrite map_length; apply Hp|]. intros i r Hr. unfold at_ in Hr. rewrite nth_error_map in Hr. destruct (nth_error p i); [|discriminate].
    injection Hr as <-. rewrite map_length. apply Ht.
  - intros i j e. unfold entry, at_. split.
    + intros (r & H1 & H2). rewrite nth_error_map in H1. destruct (nth_error p i) as [a|]; [|discriminate]. injection H1 as <-.
      rewrite nth_error_map in H2. destruct (nth_error t j) as [b|]; [|discriminate]. injection H2 as <-. exists a, b. auto.
    + intros (a & b & H1 & H2 & ->). exists (map (euclid a) t). rewrite !nth_error_map, H1, H2. auto.
Qed.

(** ** Variety *)

Lemma pdist_length : forall d p, (2 * length (pdist d p) = length p * (length p - 1))%nat.
Proof. induction p as [|x p IH]; [reflexivity|]. cbn [pdist length]. rewrite app_length, map_length. nia. Qed.

Lemma pdist_at : forall d p i j a b k, (i < j)%nat -> at_ p i a -> at_ p j b ->
  (2 * k + i * (i + 1) = 2 * i * length p + 2 * (j - i - 1))%nat -> at_ (pdist d p) k (d a b).
Proof.
  induction p as [|x p IH]; intros i j a b k Hij Ha Hb Hk; [destruct i; discriminate|].
  cbn [pdist length] in *. destruct i as [|i].
  - unfold at_ in Ha. simpl in Ha. injection Ha as ->. destruct j as [|j]; [lia|]. assert (k = j) by lia. subst k.
    unfold at_ in *. simpl in Hb. pose proof (at_lt _ _ _ _ Hb). rewrite nth_error_app1 by (rewrite map_length; auto). rewrite nth_error_map, Hb. reflexivity.
  - destruct j as [|j]; [lia|]. unfold at_ in Ha, Hb. simpl in Ha, Hb. pose proof (at_lt _ _ _ _ Ha). pose proof (at_lt _ _ _ _ Hb).
    assert (Hk' : (length p <= k)%nat) by nia. unfold at_. rewrite nth_error_app2 by (rewrite map_length; auto). rewrite map_length.
    apply (IH i j); auto; [lia|nia].
Qed.

Definition dsum (d : list R -> list R -> R) (p q : list (list R)) : R := rsum (map (fun a => rsum (map (d a) q)) p).

Lemma dsum_pairs : forall d, (forall a b, d a b = d b a) -> (forall a, d a a = 0) -> forall p, dsum d p p = 2 * rsum (pdist d p).
Proof.
  intros d Hs H0. induction p as [|x p IH]; [unfold dsum, rsum; simpl; ring|].
  assert (E : dsum d (x :: p) (x :: p) = d x x + rsum (map (d x) p) + (rsum (map (fun a => d a x) p) + dsum d p p)).
  { unfold dsum. cbn [map]. change (rsum (rsum (d x x :: map (d x) p) :: map (fun a => rsum (d a x :: map (d a) p)) p)) with
      (rsum (d x x :: map (d x) p) + rsum (map (fun a => d a x + rsum (map (d a) p)) p)). rewrite rsum_plus. reflexivity. }
  rewrite E, H0, IH. cbn [pdist]. rewrite rsum_app. rewrite (map_ext (fun a => d a x) (d x)) by auto. ring.
Qed.

Lemma dsum_perm : forall d p p', Permutation p p' -> dsum d p p = dsum d p' p'.
Proof.
  intros d p p' H. unfold dsum. transitivity (rsum (map (fun a => rsum (map (d a) p')) p)).
  - f_equal. apply map_ext. intro a. apply rsum_perm. apply Permutation_map. auto.
  - apply rsum_perm. apply Permutation_map. auto.
Qed.

Lemma variety_value : forall p n, length p = n -> (2 <= n)%nat ->
  exists v, profiles_variety p = Some v /\ v * INR (n * (n - 1)) = dsum euclid p p /\ v * INR (length (pdist euclid p)) = rsum (pdist euclid p).
Proof.
  intros p n L Hn. unfold profiles_variety, profiles_distances, rmean. pose proof (pdist_length euclid p) as Hl. rewrite L in Hl.
  destruct (pdist euclid p) as [|x l] eqn:E; [simpl in Hl; nia|]. rewrite <- E in *. assert (P : 0 < INR (length (pdist euclid p))) by (apply lt_0_INR; nia).
  eexists. split; [reflexivity|]. split; [|field; lra].
  rewrite <- Hl, mult_INR, dsum_pairs; [|apply euclid_sym|intro; apply euclid_zero; auto]. simpl (INR 2). field. lra.
Qed.

Lemma variety_one : forall p, (length p <= 1)%nat -> profiles_variety p = None.
Proof. intros [|x [|y p]] H; try reflexivity. simpl in H. lia. Qed.

Lemma variety_perm : forall p p', Permutation p p' -> profiles_variety p = profiles_variety p'.
Proof.
  intros p p' H. pose proof (Permutation_length H) as L. destruct (le_lt_dec (length p) 1) as [L1|L1].
  - rewrite !variety_one by lia. reflexivity.
  - destruct (variety_value p (length p) eq_refl) as (v & E & V & _); [lia|]. destruct (variety_value p' (length p) (eq_sym L)) as (v' & E' & V' & _); [lia|].
    rewrite E, E'. f_equal. rewrite (dsum_perm _ _ _ H) in V. apply Rmult_eq_reg_r with (INR (length p * (length p - 1))); [lra|].
    apply not_0_INR. nia.
Qed.

Lemma rsum_zero : forall l, (forall x, In x l -> 0 <= x) -> (rsum l = 0 <-> forall x, In x l -> x = 0).
Proof.
  induction l as [|x l IH]; intro H; [split; [intros _ x []|reflexivity]|]. change (rsum (x :: l)) with (x + rsum l).
  assert (G : forall m, (forall x, In x m -> 0 <= x) -> 0 <= rsum m).
  { unfold rsum. induction m as [|y m IHm]; intro Hm; simpl; [lra|]. pose proof (Hm y (or_introl eq_refl)). specialize (IHm (fun z Hz => Hm z (or_intror Hz))). lra. }
  pose proof (H x (or_introl eq_refl)). pose proof (G l (fun z Hz => H z (or_intror Hz))). specialize (IH (fun z Hz => H z (or_intror Hz))). split.
  - intros E y [<-|Hy]; [lra|]. apply IH; auto. lra.
  - intro E. rewrite (E x) by (left; auto). rewrite (proj2 IH); [ring|]. intros; apply E; right; auto.
Qed.

Lemma pdist_in : forall d p e, In e (pdist d p) -> exists a b, In a p /\ In b p /\ e = d a b.
Proof.
  induction p as [|x p IH]; intros e H; [destruct H|]. cbn [pdist] in H. apply in_app_iff in H. destruct H as [H|H].
  - apply in_map_iff in H. destruct H as (b & <- & Hb). exists x, b. simpl. auto.
  - destruct (IH e H) as (a & b & Ha & Hb & E). exists a, b. simpl. auto.
Qed.

Lemma pdist_pairs : forall d p a b, In a p -> In b p -> a = b \/ In (d a b) (pdist d p) \/ In (d b a) (pdist d p).
Proof.
  induction p as [|x p IH]; intros a b Ha Hb; [destruct Ha|]. cbn [pdist]. destruct Ha as [->|Ha], Hb as [->|Hb]; auto; rewrite !in_app_iff.
  - right. left. left. apply in_map. auto.
  - right. right. left. apply in_map. auto.
  - destruct (IH a b Ha Hb) as [|[|]]; auto.
Qed.

Lemma variety_zero : forall p n w, tbl n w p -> (2 <= n)%nat -> (profiles_variety p = Some 0 <-> forall a b, In a p -> In b p -> a = b).
Proof.
  intros p n w [L H] Hn. destruct (variety_value p n L Hn) as (v & E & _ & V). rewrite E.
  assert (P : 0 < INR (length (pdist euclid p))) by (apply lt_0_INR; pose proof (pdist_length euclid p); nia).
  assert (Lw : forall a, In a p -> length a = w) by (intros a Ha; apply in_at in Ha; destruct Ha as [i Hi]; eapply H; eauto).
  assert (Nn : forall x, In x (pdist euclid p) -> 0 <= x).
  { intros x Hx. apply pdist_in in Hx. destruct Hx as (a & b & _ & _ & ->). rewrite euclid_ssq. apply sqrt_pos. }
  pose proof (rsum_zero _ Nn) as Z. split.
  - intros E0 a b Ha Hb. injection E0 as ->. rewrite Rmult_0_l in V. symmetry in V. assert (Z1 := proj1 Z V).
    assert (Hd : a = b \/ euclid a b = 0).
    { destruct (pdist_pairs euclid p a b Ha Hb) as [Hd|[Hd|Hd]]; [left; auto|right; apply Z1; auto|right; rewrite euclid_sym; apply Z1; auto]. }
    destruct Hd as [|Hd]; auto. apply euclid_zero; auto. rewrite !Lw by auto. reflexivity.
  - intro Ha. f_equal. assert (V0 : rsum (pdist euclid p) = 0).
    { apply Z. intros x Hx. apply pdist_in in Hx. destruct Hx as (a & b & H1 & H2 & ->). apply euclid_zero; [rewrite !Lw by auto; auto|]. auto. }
    rewrite V0 in V. apply Rmult_integral in V. destruct V; auto. lra.
Qed.

Lemma pdist_scale : forall c p, pdist euclid (map (map (Rmult c)) p) = map (Rmult (Rabs c)) (pdist euclid p).
Proof.
  induction p as [|x p IH]; [reflexivity|]. cbn [map pdist]. rewrite IH, map_app, !map_map. f_equal. apply map_ext. intro y.
  rewrite !euclid_ssq, ssq_scale. apply sqrt_scale. apply ssq_nonneg.
Qed.

Lemma variety_scale : forall c p v, profiles_variety p = Some v -> profiles_variety (map (map (Rmult c)) p) = Some (Rabs c * v).
Proof.
  intros c p v. unfold profiles_variety, profiles_distances. rewrite pdist_scale. destruct (pdist euclid p) as [|x l]; [discriminate|].
  intro E. unfold rmean in *. cbn [map]. injection E as <-. f_equal.
  change (Rabs c * x :: map (Rmult (Rabs c)) l) with (map (Rmult (Rabs c)) (x :: l)). rewrite map_length. unfold Rdiv. rewrite <- Rmult_assoc. f_equal.
  rewrite (rsum_scale R (Rabs c) (fun x => x)), map_id. reflexivity.
Qed.
