(** * Properties C185-C187: distances of arrays and profiles. *)

From Coq Require Import List Reals Arith Lia Lra Permutation.
From Verif Require Import Prelude PreludeFacts SpecBase SpecBaseFacts Dist_Model Dist_Spec Dist_Proofs.
Import ListNotations.
Local Open Scope R_scope.

(** ** C185: RMSE *)

Theorem C185_value : forall n m x y, tbl n m x -> tbl n m y -> (0 < n)%nat -> (0 < m)%nat ->
  exists r, rmse x y = Ok (Some r) /\ 0 <= r /\
    r * r * INR (n * m) = sum_to n (fun i => sum_to m (fun j => (val x i j - val y i j) ^ 2)).
Proof. exact rmse_value. Qed.
Print Assumptions C185_value.

Theorem C185_zero : forall n m x y, tbl n m x -> tbl n m y -> (0 < n)%nat -> (0 < m)%nat -> (rmse x y = Ok (Some 0) <-> x = y).
Proof. exact rmse_zero. Qed.
Print Assumptions C185_zero.

(** For arrays of any shapes. *)
Theorem C185_symmetric : forall x y, rmse x y = rmse y x.
Proof. exact rmse_symmetric. Qed.
Print Assumptions C185_symmetric.

Theorem C185_triangle : forall n m x y z a b c, tbl n m x -> tbl n m y -> tbl n m z -> (0 < n)%nat -> (0 < m)%nat ->
  rmse x z = Ok (Some a) -> rmse x y = Ok (Some b) -> rmse y z = Ok (Some c) -> a <= b + c.
Proof. exact rmse_triangle. Qed.
Print Assumptions C185_triangle.

Theorem C185_shift : forall n m x y z x' y', tbl n m x -> tbl n m y -> tbl n m z -> tbl n m x' -> tbl n m y' -> (0 < n)%nat -> (0 < m)%nat ->
  shifted x z x' -> shifted y z y' -> rmse x' y' = rmse x y.
Proof. exact rmse_shift. Qed.
Print Assumptions C185_shift.

Theorem C185_scale : forall n m c x y x' y' r, tbl n m x -> tbl n m y -> tbl n m x' -> tbl n m y' -> (0 < n)%nat -> (0 < m)%nat ->
  scaled c x x' -> scaled c y y' -> rmse x y = Ok (Some r) -> rmse x' y' = Ok (Some (Rabs c * r)).
Proof. exact rmse_scale. Qed.
Print Assumptions C185_scale.

(** At most the greatest difference. *)
Theorem C185_bound : forall n m x y e r, tbl n m x -> tbl n m y -> (0 < n)%nat -> (0 < m)%nat ->
  (forall i j a b, entry x i j a -> entry y i j b -> Rabs (a - b) <= e) -> rmse x y = Ok (Some r) -> r <= e.
Proof. exact rmse_bound. Qed.
Print Assumptions C185_bound.

Theorem C185_refused : forall n m n' m' x y, tbl n m x -> tbl n' m' y -> (0 < n)%nat -> (0 < n')%nat ->
  clash n n' \/ clash m m' -> rmse x y = Err ValueError.
Proof. exact rmse_refused. Qed.
Print Assumptions C185_refused.

Ltac root v := match goal with |- sqrt ?a = _ => replace a with v by field end.

Lemma three_squares : sqrt 9 = 3.
Proof. replace 9 with (3 * 3) by lra. apply sqrt_square. lra. Qed.

(** Arrays of different shapes are not refused: a single number is compared with all
    the others. *)
Theorem C185_same_shape_refuted : exists x y n m n' m', tbl n m x /\ tbl n' m' y /\ (n, m) <> (n', m') /\ rmse x y = Ok (Some 1).
Proof.
  exists [[0; 2]], [[1]], 1%nat, 2%nat, 1%nat, 1%nat. split; [|split; [|split; [congruence|]]].
  - apply tbl_cons. split; auto. split; auto. intros [|i] r H; discriminate.
  - apply tbl_cons. split; auto. split; auto. intros [|i] r H; discriminate.
  - unfold rmse. cbn. do 2 f_equal. root 1. apply sqrt_1.
Qed.
Print Assumptions C185_same_shape_refuted.

Example C185_example : rmse [[0; 1]; [2; 3]] [[3; 4]; [-1; 0]] = Ok (Some 3) /\
  rmse [[0; 1]] [[1; 2; 3]] = Err ValueError /\ rmse [[]] [[]] = Ok None.
Proof.
  split; [|split; reflexivity]. unfold rmse. cbn. do 2 f_equal. root 9. apply three_squares.
Qed.

(** ** C186: similarity *)

Theorem C186_similarity : forall n m w p t, tbl n w p -> tbl m w t -> (0 < n)%nat -> (0 < m)%nat ->
  exists s, profiles_similarity p t = Ok s /\ tbl n m s /\
    forall i j e, entry s i j e -> exists a b, at_ p i a /\ at_ t j b /\ 0 <= e /\
      e * e = sum_to w (fun k => (num a k - num b k) ^ 2) /\ (e = 0 <-> a = b).
Proof.
  intros n m w p t Hp Ht Hn Hm. eexists. split; [apply (similarity_ok n m w); auto|].
  destruct (similarity_entry n m w p t _ Hp Ht Hn Hm (similarity_ok n m w p t Hp Ht Hn Hm)) as [Hs He]. split; auto.
  intros i j e H. apply He in H. destruct H as (a & b & Ha & Hb & ->). exists a, b.
  assert (La : length a = w) by (eapply Hp; eauto). assert (Lb : length b = w) by (eapply Ht; eauto).
  destruct (euclid_spec w a b La Lb) as [H1 H2]. repeat split; auto; apply euclid_zero; congruence.
Qed.
Print Assumptions C186_similarity.

Theorem C186_exchange : forall n m w p t s s', tbl n w p -> tbl m w t -> (0 < n)%nat -> (0 < m)%nat ->
  profiles_similarity p t = Ok s -> profiles_similarity t p = Ok s' -> forall i j e, entry s i j e <-> entry s' j i e.
Proof.
  intros n m w p t s s' Hp Ht Hn Hm E E' i j e.
  rewrite (proj2 (similarity_entry n m w p t s Hp Ht Hn Hm E)), (proj2 (similarity_entry m n w t p s' Ht Hp Hm Hn E')).
  split; intros (a & b & H1 & H2 & ->); exists b, a; repeat split; auto; apply euclid_sym.
Qed.
Print Assumptions C186_exchange.

Theorem C186_triangle : forall n m l w p t u s1 s2 s3 i j k a b c, tbl n w p -> tbl m w t -> tbl l w u -> (0 < n)%nat -> (0 < m)%nat -> (0 < l)%nat ->
  profiles_similarity p t = Ok s1 -> profiles_similarity p u = Ok s2 -> profiles_similarity u t = Ok s3 ->
  entry s1 i j a -> entry s2 i k b -> entry s3 k j c -> a <= b + c.
Proof.
  intros n m l w p t u s1 s2 s3 i j k a b c Hp Ht Hu Hn Hm Hl E1 E2 E3 A B C.
  apply (proj2 (similarity_entry n m w p t s1 Hp Ht Hn Hm E1)) in A. apply (proj2 (similarity_entry n l w p u s2 Hp Hu Hn Hl E2)) in B.
  apply (proj2 (similarity_entry l m w u t s3 Hu Ht Hl Hm E3)) in C.
  destruct A as (x & y & X & Y & ->), B as (x' & z & X' & Z & ->), C as (z' & y' & Z' & Y' & ->). unfold at_ in *.
  rewrite X in X'. injection X' as <-. rewrite Y in Y'. injection Y' as <-. rewrite Z in Z'. injection Z' as <-.
  assert (length x = w) by (eapply Hp; eauto). assert (length y = w) by (eapply Ht; eauto). assert (length z = w) by (eapply Hu; eauto).
  apply euclid_triangle; congruence.
Qed.
Print Assumptions C186_triangle.

Theorem C186_refused : forall n m w w' p t, tbl n w p -> tbl m w' t -> (0 < n)%nat -> (0 < m)%nat -> w <> w' ->
  profiles_similarity p t = Err ValueError.
Proof.
  intros n m w w' p t Hp Ht Hn Hm Hw. unfold profiles_similarity, cdist. rewrite (width_tbl n w p), (width_tbl m w' t) by auto.
  destruct (Nat.eqb_spec w w'); [contradiction|reflexivity].
Qed.
Print Assumptions C186_refused.

Lemma five : sqrt 25 = 5.
Proof. replace 25 with (5 * 5) by lra. apply sqrt_square. lra. Qed.

Example C186_example : profiles_similarity [[0; 0]; [3; 4]] [[3; 4]] = Ok [[5]; [0]] /\
  profiles_similarity [[0; 0]] [[0]] = Err ValueError.
Proof.
  split; [|reflexivity]. unfold profiles_similarity, cdist, euclid. cbn. do 3 f_equal.
  - root 25. apply five.
  - f_equal. f_equal. root 0. apply sqrt_0.
Qed.

(** ** C187: variety *)

(** The distances are listed by the first profile, then the second. *)
Theorem C187_distances : forall p i j a b k, (i < j)%nat -> at_ p i a -> at_ p j b ->
  (2 * k + i * (i + 1) = 2 * i * length p + 2 * (j - i - 1))%nat -> at_ (profiles_distances p) k (euclid a b).
Proof. intros p. exact (pdist_at euclid p). Qed.
Print Assumptions C187_distances.

Theorem C187_number : forall p, (2 * length (profiles_distances p) = length p * (length p - 1))%nat.
Proof. exact (pdist_length euclid). Qed.
Print Assumptions C187_number.

(** The average is the mean over the ordered pairs of different profiles, the
    similarity of the profiles with themselves. *)
Theorem C187_average : forall p n w s, tbl n w p -> (2 <= n)%nat -> profiles_similarity p p = Ok s ->
  exists v, profiles_variety p = Some v /\ v * INR (n * (n - 1)) = sum_to n (fun i => sum_to n (fun j => val s i j)).
Proof.
  intros p n w s Hp Hn E. destruct (variety_value p n (proj1 Hp) Hn) as (v & Ev & V & _). exists v. split; auto. rewrite V.
  rewrite (similarity_ok n n w) in E by (auto; lia). injection E as <-. unfold dsum. rewrite (rsum_to _ _ []). rewrite (proj1 Hp).
  apply sum_to_ext. intros i Hi. destruct (nth_error p i) as [a|] eqn:Ea; [|apply nth_error_None in Ea; rewrite (proj1 Hp) in Ea; lia].
  rewrite (nth_error_nth _ _ _ Ea). rewrite (rsum_to _ _ []), (proj1 Hp). apply sum_to_ext. intros j Hj.
  unfold val. erewrite (nth_error_nth (map _ p)); [|rewrite nth_error_map, Ea; reflexivity].
  destruct (nth_error p j) as [b|] eqn:Eb; [|apply nth_error_None in Eb; rewrite (proj1 Hp) in Eb; lia].
  rewrite (nth_error_nth _ _ _ Eb). unfold num. symmetry. apply nth_error_nth. rewrite nth_error_map, Eb. reflexivity.
Qed.
Print Assumptions C187_average.

Theorem C187_order : forall p p', Permutation p p' -> profiles_variety p = profiles_variety p'.
Proof. exact variety_perm. Qed.
Print Assumptions C187_order.

Theorem C187_zero : forall p n w, tbl n w p -> (2 <= n)%nat ->
  (profiles_variety p = Some 0 <-> forall a b, In a p -> In b p -> a = b).
Proof. exact variety_zero. Qed.
Print Assumptions C187_zero.

Theorem C187_scale : forall c p v, profiles_variety p = Some v -> profiles_variety (map (map (Rmult c)) p) = Some (Rabs c * v).
Proof. exact variety_scale. Qed.
Print Assumptions C187_scale.

(** A single profile gives nan. *)
Theorem C187_single : forall p, (length p <= 1)%nat -> profiles_variety p = None.
Proof. exact variety_one. Qed.
Print Assumptions C187_single.

(** Without the average, the result is never of size n_profiles * n_profiles. *)
Theorem C187_shape_refuted : forall p, p <> [] -> length (profiles_distances p) <> (length p * length p)%nat.
Proof. intros p Hp H. pose proof (pdist_length euclid p) as L. unfold profiles_distances in H. rewrite H in L. destruct p; [congruence|]. simpl length in *. nia. Qed.
Print Assumptions C187_shape_refuted.

Example C187_example : profiles_distances [[0; 0]; [3; 4]; [0; 0]] = [5; 0; 5] /\ profiles_variety [[1; 2]] = None.
Proof.
  split; [|reflexivity]. unfold profiles_distances, euclid. cbn. f_equal; [|f_equal; [|f_equal]].
  - root 25. apply five.
  - root 0. apply sqrt_0.
  - root 25. apply five.
Qed.
