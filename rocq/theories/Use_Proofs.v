(** * Proofs about the relative use of bulbs. *)

From Coq Require Import List Reals Lra Lia Arith.
From Verif Require Import Prelude PreludeFacts SpecBase SpecBaseFacts Use_Model Use_Spec.
Import ListNotations.
Local Open Scope R_scope.

Lemma scale_pos : 0 < use_scale.
Proof. unfold use_scale. lra. Qed.

Lemma ln_le_id : forall x, 0 < x -> ln x <= x.
Proof.
  intros x H. destruct (Rle_or_lt x 1) as [L|L].
  - assert (ln x <= 0); [|lra]. rewrite <- ln_1. destruct (Req_dec x 1) as [->|N]; [lra|]. left. apply ln_increasing; lra.
  - apply Rlt_le. assert (E : ln x < ln (exp x)) by (apply ln_increasing; [exact H|]; pose proof (exp_ineq1 x); lra). rewrite ln_exp in E. exact E.
Qed.

Lemma one_above : forall r t, 0 <= r -> (above (one_use r) t <-> r < exp (- t / use_scale)).
Proof.
  intros r t Hr. pose proof scale_pos as C. unfold one_use. destruct (Req_EM_T r 0) as [->|N]; cbn [above].
  - split; auto. intros _. apply exp_pos.
  - assert (P : 0 < r) by lra. split; intro H.
    + rewrite <- (exp_ln r P). apply exp_increasing. apply (Rmult_lt_reg_r use_scale); [exact C|]. unfold Rdiv. rewrite Rmult_assoc, Rinv_l, Rmult_1_r by lra. lra.
    + apply ln_increasing in H; [|exact P]. rewrite ln_exp in H. apply (Rmult_lt_compat_r use_scale) in H; [|exact C].
      unfold Rdiv in H. rewrite Rmult_assoc, Rinv_l, Rmult_1_r in H by lra. lra.
Qed.

Lemma one_smaller : forall r r', 0 <= r -> r < r' -> smaller (one_use r') (one_use r).
Proof.
  intros r r' H L. pose proof scale_pos as C. unfold one_use. destruct (Req_EM_T r' 0) as [E|N]; [lra|]. destruct (Req_EM_T r 0) as [E|N']; cbn [smaller]; auto.
  assert (ln r < ln r') by (apply ln_increasing; lra). assert (use_scale * ln r < use_scale * ln r') by (apply Rmult_lt_compat_l; assumption). lra.
Qed.

Lemma one_sign : forall r, 0 < r -> r < 1 -> exists x, one_use r = Some x /\ 0 < x.
Proof.
  intros r H L. pose proof scale_pos as C. unfold one_use. destruct (Req_EM_T r 0) as [E|N]; [lra|]. eexists. split; [reflexivity|].
  assert (X : ln r < ln 1) by (apply ln_increasing; lra). rewrite ln_1 in X. assert (0 < use_scale * - ln r) by (apply Rmult_lt_0_compat; lra). lra.
Qed.

Lemma one_reaches : forall t, 0 < t -> exists r, 0 < r /\ r < 1 /\ one_use r = Some t.
Proof.
  intros t H. pose proof scale_pos as C. exists (exp (- t / use_scale)). pose proof (exp_pos (- t / use_scale)) as P. split; [exact P|]. split.
  - rewrite <- exp_0. apply exp_increasing. unfold Rdiv. rewrite Ropp_mult_distr_l_reverse. assert (0 < t * / use_scale) by (apply Rmult_lt_0_compat; [|apply Rinv_0_lt_compat]; assumption). lra.
  - unfold one_use. destruct (Req_EM_T _ 0) as [E|N]; [lra|]. rewrite ln_exp. f_equal. field. lra.
Qed.

(** The table *)

Lemma map2_seq_at : forall A B (f : nat -> A -> B) l a i y, at_ (map2 f (seq a (length l)) l) i y <-> exists x, at_ l i x /\ y = f (a + i)%nat x.
Proof.
  intros A B f l. induction l as [|x l IH]; intros a i y.
  - cbn. unfold at_. destruct i; split; try discriminate; intros (z & E & _); discriminate.
  - cbn [length seq map2]. destruct i as [|i].
    + unfold at_. cbn. rewrite Nat.add_0_r. split; [intros [= <-]; eauto|intros (z & [= <-] & ->); auto].
    + unfold at_ in *. cbn [nth_error]. rewrite IH. replace (S a + i)%nat with (a + S i)%nat by lia. reflexivity.
Qed.

Lemma use_cell : forall A (bp : list (list A)) r h j v, cell (relative_use bp r) h j v <-> v = one_use (r h j) /\ exists p, cell bp h j p.
Proof.
  intros A bp r h j v. unfold cell, relative_use. split.
  - intros (row & H1 & H2). apply (proj1 (map2_seq_at _ _ (fun h row => map2 (fun j (_ : A) => one_use (r h j)) (seq 0 (length row)) row) bp 0 h row)) in H1 as (row0 & H1 & ->).
    apply (proj1 (map2_seq_at _ _ (fun j (_ : A) => one_use (r (0 + h)%nat j)) row0 0 j v)) in H2 as (p & H2 & ->). cbn. split; [reflexivity|]. eauto.
  - intros [-> (p & row0 & H1 & H2)]. exists (map2 (fun j (_ : A) => one_use (r h j)) (seq 0 (length row0)) row0). split.
    + apply (proj2 (map2_seq_at _ _ (fun h row => map2 (fun j (_ : A) => one_use (r h j)) (seq 0 (length row)) row) bp 0 h _)). eauto.
    + apply (proj2 (map2_seq_at _ _ (fun j (_ : A) => one_use (r h j)) row0 0 j _)). eauto.
Qed.

(** The mean *)

Definition use_of (r : R) : R := - use_scale * ln r.
Definition primitive_of (r : R) : R := - use_scale * (r * ln r - r).

Lemma primitive_limit : forall x, 0 < x -> derivable_pt_lim primitive_of x (use_of x).
Proof.
  intros x H. unfold primitive_of, use_of. apply (derivable_pt_lim_scal (fun r => r * ln r - r) (- use_scale) x (ln x)).
  replace (ln x) with (1 * ln x + x * / x - 1) at 1 by (field; lra).
  apply (derivable_pt_lim_minus (fun r => r * ln r) (fun r => r) x (1 * ln x + x * / x) 1).
  - apply (derivable_pt_lim_mult (fun r => r) ln x 1 (/ x)); [apply derivable_pt_lim_id|apply derivable_pt_lim_ln; exact H].
  - apply derivable_pt_lim_id.
Qed.

Lemma use_continuous : forall x, 0 < x -> continuity_pt use_of x.
Proof.
  intros x H. unfold use_of. apply (continuity_pt_scal ln (- use_scale)). apply derivable_continuous_pt. exists (/ x). apply derivable_pt_lim_ln. exact H.
Qed.

Lemma mean_above : forall e, 0 < e -> e <= 1 -> exists pr : Riemann_integrable use_of e 1, RiemannInt pr = use_scale * (1 - e + e * ln e).
Proof.
  intros e H L. assert (C0 : forall x, e <= x <= 1 -> continuity_pt use_of x) by (intros x [X _]; apply use_continuous; lra).
  pose proof (RiemannInt_P29 L C0) as A1.
  assert (A2 : antiderivative use_of primitive_of e 1).
  { split; [|exact L]. intros x [X _]. assert (P : 0 < x) by lra. exists (exist _ (use_of x) (primitive_limit x P)). reflexivity. }
  destruct (antiderivative_Ucte _ _ _ _ _ A1 A2) as [c K].
  exists (FTC_P1 L C0 L (Rle_refl 1)).
  assert (K1 := K 1 (conj L (Rle_refl 1))). assert (K0 := K e (conj (Rle_refl e) L)).
  unfold primitive in K1, K0. destruct (Rle_dec e 1) as [r1|]; [|contradiction]. destruct (Rle_dec 1 1) as [r2|N]; [|exfalso; apply N; lra]. destruct (Rle_dec e e) as [r3|N]; [|exfalso; apply N; lra].
  rewrite (RiemannInt_P5 (FTC_P1 L C0 r1 r2) (FTC_P1 L C0 L (Rle_refl 1))) in K1. rewrite (RiemannInt_P9 (FTC_P1 L C0 r3 r1)) in K0.
  unfold primitive_of in K1, K0. rewrite ln_1 in K1. rewrite K1. lra.
Qed.

Lemma e_ln_e : forall e, 0 < e -> e <= 1 -> Rabs (e * ln e) <= 2 * sqrt e.
Proof.
  intros e H L. assert (S0 : 0 < sqrt e) by (apply sqrt_lt_R0; exact H).
  assert (N : ln e <= 0). { rewrite <- ln_1. destruct (Req_dec e 1) as [->|N]; [lra|]. left. apply ln_increasing; lra. }
  rewrite Rabs_left1.
  - assert (E : ln e = 2 * ln (sqrt e)). { rewrite <- (sqrt_sqrt e) at 1 by lra. rewrite ln_mult by assumption. ring. }
    assert (I : - ln (sqrt e) <= / sqrt e). { rewrite <- ln_Rinv by exact S0. apply ln_le_id. apply Rinv_0_lt_compat. exact S0. }
    rewrite E. replace (- (e * (2 * ln (sqrt e)))) with (2 * e * - ln (sqrt e)) by ring.
    replace (2 * sqrt e) with (2 * e * / sqrt e). { apply Rmult_le_compat_l; lra. }
    rewrite <- (sqrt_sqrt e) at 1 by lra. field. lra.
  - assert (0 <= e * - ln e) by (apply Rmult_le_pos; lra). lra.
Qed.

Lemma mean_limit : forall d, 0 < d -> exists e0, 0 < e0 /\ forall e, 0 < e -> e <= 1 -> e < e0 -> Rabs (use_scale * (1 - e + e * ln e) - use_scale) < d.
Proof.
  intros d Hd. pose proof scale_pos as C. set (q := d / (4 * use_scale)). assert (Q : 0 < q) by (unfold q, Rdiv; apply Rmult_lt_0_compat; [exact Hd|apply Rinv_0_lt_compat; lra]).
  assert (Dq : d = 4 * (use_scale * q)) by (unfold q; field; lra).
  exists (q * q). split; [apply Rmult_lt_0_compat; exact Q|]. intros e H L E.
  assert (S0 : sqrt e < q). { rewrite <- (sqrt_square q) by lra. apply sqrt_lt_1; lra. }
  assert (S1 : e <= sqrt e). { assert (sqrt e <= 1) by (rewrite <- sqrt_1; apply sqrt_le_1; lra). assert (0 <= sqrt e) by apply sqrt_pos. rewrite <- (sqrt_sqrt e) at 1 by lra. rewrite <- (Rmult_1_r (sqrt e)) at 3. apply Rmult_le_compat_l; assumption. }
  pose proof (e_ln_e e H L) as B.
  replace (use_scale * (1 - e + e * ln e) - use_scale) with (use_scale * (e * ln e - e)) by ring.
  rewrite Rabs_mult, (Rabs_pos_eq use_scale) by lra. rewrite Dq.
  assert (T : Rabs (e * ln e - e) <= Rabs (e * ln e) + e). { unfold Rminus. eapply Rle_trans; [apply Rabs_triang|]. rewrite Rabs_Ropp, (Rabs_pos_eq e) by lra. lra. }
  assert (X : Rabs (e * ln e - e) < 4 * q) by lra. replace (4 * (use_scale * q)) with (use_scale * (4 * q)) by ring. apply Rmult_lt_compat_l; assumption.
Qed.
