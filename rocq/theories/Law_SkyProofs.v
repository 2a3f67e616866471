(** * Proofs of the law of the clearness of the sky. *)

From Coq Require Import List ZArith QArith Bool Arith Lia Lqa.
From Verif Require Import Prelude PreludeFacts SpecBase SpecBaseFacts Sampling_Spec Sampling_Model Sampling_Proofs Activity_Model Activity_Spec
  Time_Model Sky_Model Law_Spec Law_Base Law_ChainProofs.
Import ListNotations.

Lemma mc_one_selects : forall p r, p <> [] -> is_pdf p -> 0 <= r -> r < 1 -> exists i, mc_one (cumsum p) r = Ok i /\ selects p r i.
Proof.
  intros p r Hne [Hp Ht] H0 H1. destruct (mc_one_total (cumsum p) r (cumsum_nonempty p Hne)) as [i Hi]. exists i. split; [exact Hi|].
  apply (mc_pdf_one_iff p r i Hne Hp H0); [rewrite Ht; exact H1|]. unfold mc_from_1d_pdf, mc_from_1d_cdf.
  destruct (cumsum p) eqn:Ec; [exfalso; eapply cumsum_nonempty; eauto|]. cbn [mapM bind]. rewrite Hi. reflexivity.
Qed.

Section Sky.
  Variables (m : list (list Q)) (n_st : nat).
  Hypothesis Hst : stochastic n_st m.

  Fixpoint goes (n x : nat) (us : list Q) (y : nat) : Prop :=
    match n with
    | O => x = y
    | S k => exists s, In s (seq 0 (length m)) /\ (exists u, firstn 1 us = [u] /\ selects (nth x m []) u s) /\ goes k s (skipn 1 us) y
    end.

  Lemma sky_row : forall x, (x < n_st)%nat -> at_ m x (nth x m []) /\ length (nth x m []) = n_st /\ is_pdf (nth x m []).
  Proof.
    intros x Hx. destruct Hst as [Hl Hr]. rewrite <- Hl in Hx. destruct (lt_at _ _ _ Hx) as [row H]. rewrite (nth_error_nth _ _ _ H).
    split; [exact H|]. apply (Hr x row H).
  Qed.

  Lemma prob_goes : forall n x y, (x < n_st)%nat -> has_probability n (fun us => goes n x us y) (power_entry m n x y).
  Proof.
    induction n as [|n IH]; intros x y Hx; cbn [goes power_entry].
    - destruct (Nat.eqb_spec x y) as [E|E]; [apply prob_always; auto|apply prob_never; auto].
    - change (S n) with (1 + n)%nat.
      apply (prob_then 1 n nat (seq 0 (length m)) (fun s us => exists u, us = [u] /\ selects (nth x m []) u s) (fun s us => goes n s us y)).
      + apply seq_NoDup.
      + intros s _. apply prob_selects. apply (sky_row x Hx).
      + intros s Hs. apply in_seq in Hs. apply IH. destruct Hst. lia.
      + intros us s s' _ _ _ (u & -> & H1) (u' & E & H2). injection E as <-.
        eapply selects_fun; [exact (proj1 (proj2 (proj2 (sky_row x Hx))))| |]; eassumption.
  Qed.

  Lemma goes_fun : forall n x us y y', (x < n_st)%nat -> goes n x us y -> goes n x us y' -> y = y'.
  Proof.
    induction n as [|n IH]; intros x us y y' Hx H H'; [cbn in *; congruence|].
    destruct H as (s & Hs & (u & E & Hh) & H). destruct H' as (s' & Hs' & (u' & E' & Hh') & H').
    rewrite E in E'. injection E' as <-.
    rewrite (selects_fun _ _ _ _ (proj1 (proj2 (proj2 (sky_row x Hx)))) Hh' Hh) in H'. apply in_seq in Hs.
    refine (IH s _ _ _ _ H H'). destruct Hst. lia.
  Qed.

  Lemma sky_step_eq : forall u s x, user s = x -> sky_step (map cumsum m) u s =
    bind (next_clearness (map cumsum m) (u (now s)) x) (fun x' => Ok (mkT (now s + step_size s) (step_size s) (ticks s + 1) x')).
  Proof.
    intros u s x <-. unfold sky_step, decorated, tstep, call_back. destruct (next_clearness _ _ _); [|reflexivity].
    cbn [bind now step_size ticks user]. destruct (negb _); reflexivity.
  Qed.

  Lemma sky_iterate : forall u, (forall t, 0 <= u t /\ u t < 1) -> forall n s, (user s < n_st)%nat ->
    exists s', iterate n (sky_step (map cumsum m) u) s = Ok s' /\ step_size s' = step_size s /\
      now s' = (now s + Z.of_nat n * step_size s)%Z /\ (user s' < n_st)%nat /\
      goes n (user s) (map (fun k => u (now s + Z.of_nat k * step_size s)%Z) (seq 0 n)) (user s').
  Proof.
    intros u Hu. induction n as [|n IH]; intros s Hs.
    - exists s. repeat split; try assumption. lia.
    - cbn [iterate]. rewrite (sky_step_eq u s (user s) eq_refl). destruct (sky_row (user s) Hs) as (R1 & R2 & R3).
      assert (Hne : nth (user s) m [] <> []) by (intros E; rewrite E in R2; cbn in R2; lia).
      destruct (mc_one_selects _ (u (now s)) Hne R3 (proj1 (Hu _)) (proj2 (Hu _))) as (i & E & Hi).
      unfold next_clearness, get_at. rewrite nth_error_map, R1. cbn [option_map bind]. rewrite E. cbn [bind].
      destruct (IH (mkT (now s + step_size s) (step_size s) (ticks s + 1) i)) as (s' & E1 & E2 & E3 & E4 & E5);
        [cbn [user]; destruct Hi; lia|].
      cbn [now step_size user] in *. exists s'. split; [exact E1|]. split; [exact E2|]. split; [lia|]. split; [exact E4|].
      cbn [goes]. exists i. split; [apply in_seq; destruct Hst, Hi; lia|].
      assert (Em : map (fun k => u (now s + Z.of_nat k * step_size s)%Z) (seq 0 (S n)) =
        u (now s) :: map (fun k => u (now s + step_size s + Z.of_nat k * step_size s)%Z) (seq 0 n)).
      { cbn [seq map]. f_equal; [f_equal; lia|]. rewrite <- seq_shift, map_map. apply map_ext. intros k. f_equal. lia. }
      rewrite Em. cbn [firstn skipn]. split; [exists (u (now s)); auto|exact E5].
  Qed.

  Lemma stochastic_checked : check_valid_cdf eps_cdf (map cumsum m) = Ok true.
  Proof.
    apply check_valid_cdf_iff. intros k row Hr. unfold at_ in Hr. rewrite nth_error_map in Hr.
    destruct (nth_error m k) as [p|] eqn:Hp; [|discriminate]. injection Hr as <-. destruct Hst as [_ H]. destruct (H k p Hp) as [_ H2].
    assert (K := check_pdf_ok p H2). rewrite check_valid_cdf_iff in K. apply (K 0%nat). reflexivity.
  Qed.

  Lemma iterate_add : forall U (step : tsim U -> result (tsim U)) a b s,
    iterate (a + b) step s = bind (iterate a step s) (iterate b step).
  Proof.
    induction a as [|a IH]; intros b s; [reflexivity|]. cbn [iterate Nat.add]. destruct (step s); [|reflexivity]. cbn [bind]. apply IH.
  Qed.

  Lemma make_sky_eq : forall values initial start step u k, clearness_index values initial = Ok k -> (0 < step)%Z ->
    make_sky m values initial start step u =
    iterate (Z.to_nat (start mod us_per_day / step)) (sky_step (map cumsum m) u)
      (mkT (start - start mod us_per_day + start mod us_per_day mod step) step 0 k).
  Proof.
    intros values initial start step u k Hk Hs. unfold make_sky. rewrite stochastic_checked, Hk. cbn [bind].
    unfold t_initialize, init_datetime. cbn [now step_size user].
    assert (D := Z.div_mod start us_per_day ltac:(discriminate)). assert (B := Z.mod_pos_bound start us_per_day eq_refl).
    replace (start / us_per_day * us_per_day + 0)%Z with (start - start mod us_per_day)%Z by lia.
    assert (G : (start - start mod us_per_day >? start)%Z = false) by (rewrite Z.gtb_ltb; apply Z.ltb_ge; lia). rewrite G. cbn [bind].
    replace (start - (start - start mod us_per_day))%Z with (start mod us_per_day)%Z by lia.
    destruct (Z.eqb_spec step 0); [lia|]. rewrite Z.quot_div_nonneg by lia.
    assert (Q := Z.div_pos (start mod us_per_day) step (proj1 B) Hs).
    destruct (Z.ltb_spec (start mod us_per_day / step) 0); [lia|]. reflexivity.
  Qed.

  (** The times of the steps made from midnight on. *)
  Definition sky_time (start step : Z) (k : nat) : Z :=
    (start - start mod us_per_day + start mod us_per_day mod step + Z.of_nat k * step)%Z.

  Lemma sky_law : forall values initial start step n k y, clearness_index values initial = Ok k -> (k < n_st)%nat -> (0 < step)%Z ->
    let d := (Z.to_nat (start mod us_per_day / step) + n)%nat in
    has_probability d (fun us => forall u, (forall t, 0 <= u t /\ u t < 1) ->
      map (fun i => u (sky_time start step i)) (seq 0 d) = us ->
      exists s, bind (make_sky m values initial start step u) (iterate n (sky_step (map cumsum m) u)) = Ok s /\
        now s = (start + Z.of_nat n * step)%Z /\ user s = y)
    (power_entry m d k y).
  Proof.
    intros values initial start step n k y Hk Hkn Hs d.
    set (s0 := mkT (start - start mod us_per_day + start mod us_per_day mod step) step 0 k).
    assert (R : forall u, bind (make_sky m values initial start step u) (iterate n (sky_step (map cumsum m) u)) =
      iterate d (sky_step (map cumsum m) u) s0).
    { intros u. rewrite (make_sky_eq _ _ _ _ u k Hk Hs). symmetry. apply iterate_add. }
    assert (T : (now s0 + Z.of_nat d * step = start + Z.of_nat n * step)%Z).
    { cbn [s0 now]. unfold d. assert (B := Z.mod_pos_bound start us_per_day eq_refl).
      assert (Q := Z.div_pos (start mod us_per_day) step (proj1 B) Hs). rewrite Nat2Z.inj_add, Z2Nat.id by exact Q.
      assert (D := Z.div_mod (start mod us_per_day) step ltac:(lia)). lia. }
    eapply prob_ext; [exact (prob_goes d k y Hkn)| |reflexivity]. intros us [Hl Hus]. cbv beta. split.
    - intros Hg u Hu E. rewrite R. destruct (sky_iterate u Hu d s0 Hkn) as (s & E1 & _ & E3 & _ & E5). exists s.
      split; [exact E1|]. split; [rewrite E3; exact T|].
      cbn [s0 now step_size user] in E5. unfold sky_time in E. rewrite E in E5. exact (goes_fun d k us _ _ Hkn E5 Hg).
    - intros H. set (u := fun t => nth (Z.to_nat ((t - now s0) / step)) us 0).
      assert (Hu : forall t, 0 <= u t /\ u t < 1).
      { intros t. unfold u. destruct (Nat.lt_ge_cases (Z.to_nat ((t - now s0) / step)) (length us)) as [L|L].
        - rewrite Forall_forall in Hus. apply Hus, nth_In, L.
        - rewrite nth_overflow by exact L. lra. }
      assert (E : map (fun i => u (sky_time start step i)) (seq 0 d) = us).
      { transitivity (map (fun k => nth k us 0) (seq 0 (length us))); [|apply map_nth_seq]. rewrite Hl. apply map_ext. intros i. unfold u, sky_time.
        cbn [s0 now]. f_equal.
        replace (start - start mod us_per_day + start mod us_per_day mod step + Z.of_nat i * step - (start - start mod us_per_day + start mod us_per_day mod step))%Z
          with (Z.of_nat i * step)%Z by lia. rewrite Z.div_mul by lia. apply Nat2Z.id. }
      destruct (H u Hu E) as (s & E1 & _ & E2). rewrite R in E1. destruct (sky_iterate u Hu d s0 Hkn) as (s' & E3 & _ & _ & _ & E5).
      rewrite E1 in E3. injection E3 as <-. cbn [s0 now step_size user] in E5. unfold sky_time in E. rewrite E in E5. rewrite <- E2. exact E5.
  Qed.
End Sky.
