(** * Proofs of the laws of sampled populations, ownership and switch-ons. *)

From Coq Require Import List ZArith QArith Bool Arith Lia Lqa.
From Verif Require Import Prelude PreludeFacts SpecBase SpecBaseFacts Sampling_Spec Sampling_Model Sampling_Proofs Activity_Spec
  Appliance_Model Law_Spec Law_Base Law_ChainProofs.
Import ListNotations.

(** ** Binomial counts *)

Lemma choose_over : forall n k, (n < k)%nat -> choose n k = 0%Z.
Proof. induction n as [|n IH]; intros [|k] H; try lia; [reflexivity|]. cbn [choose]. rewrite !IH by lia. reflexivity. Qed.

Lemma choose_0 : forall n, choose n 0 = 1%Z.
Proof. destruct n; reflexivity. Qed.

Lemma binomial_S : forall n k p, binomial (S n) (S k) p == p * binomial n k p + (1 - p) * binomial n (S k) p.
Proof.
  intros n k p. unfold binomial. cbn [choose Nat.sub power]. rewrite inject_Z_plus.
  destruct (Nat.lt_ge_cases k n) as [H|H].
  - replace (n - k)%nat with (S (n - S k)) by lia. cbn [power]. ring.
  - rewrite (choose_over n (S k)) by lia. change (inject_Z 0) with 0. ring.
Qed.

Lemma binomial_0 : forall n p, binomial (S n) 0 p == (1 - p) * binomial n 0 p.
Proof. intros n p. unfold binomial. rewrite !choose_0, !Nat.sub_0_r. cbn [power]. ring. Qed.

Lemma prob_count : forall (b : Q -> bool) p,
  has_probability 1 (fun us => exists u, us = [u] /\ b u = true) p ->
  has_probability 1 (fun us => exists u, us = [u] /\ b u = false) (1 - p) ->
  forall n k, has_probability n (fun us => length (filter b us) = k) (binomial n k p).
Proof.
  intros b p Hy Hn. induction n as [|n IH]; intros k.
  - destruct k as [|k].
    + eapply prob_ext; [apply (prob_always 0 (fun us => length (filter b us) = 0%nat))|reflexivity|reflexivity].
      intros us [H _]. destruct us; [reflexivity|discriminate].
    + eapply prob_ext; [apply (prob_never 0 (fun us => length (filter b us) = S k))|reflexivity|unfold binomial; cbn; ring].
      intros us [H _]. destruct us; [discriminate|discriminate].
  - change (S n) with (1 + n)%nat. destruct k as [|k].
    + eapply prob_ext; [exact (prob_both _ _ _ _ _ _ Hn (IH 0%nat))| |symmetry; apply binomial_0].
      intros us [Hl _]. destruct us as [|u us]; [discriminate|]. cbv beta. cbn [firstn skipn filter]. split.
      * intros [(v & E & Hv) H]. injection E as <-. rewrite Hv. exact H.
      * destruct (b u) eqn:E; [discriminate|]. intros H. split; [exists u; auto|exact H].
    + eapply prob_ext.
      * apply prob_either; [exact (prob_both _ _ _ _ _ _ Hy (IH k))|exact (prob_both _ _ _ _ _ _ Hn (IH (S k)))|].
        intros us _ [(u & E & H) _] [(u' & E' & H') _]. rewrite E in E'. injection E' as <-. congruence.
      * intros us [Hl _]. destruct us as [|u us]; [discriminate|]. cbv beta. cbn [firstn skipn filter]. split.
        -- intros [[(v & E & Hv) H]|[(v & E & Hv) H]]; injection E as <-; rewrite Hv; cbn [length]; congruence.
        -- destruct (b u) eqn:E; cbn [length]; intros H; [left|right]; (split; [exists u; auto|congruence]).
      * symmetry. apply binomial_S.
Qed.

(** ** Populations *)

Lemma mc_selects : forall p us, p <> [] -> is_pdf p -> Forall (fun u => 0 <= u /\ u < 1) us ->
  exists out, mc_from_1d_cdf (cumsum p) us = Ok out /\ Forall2 (selects p) us out.
Proof.
  intros p us Hne [Hp Ht] Hus.
  assert (M : exists out, mapM (mc_one (cumsum p)) us = Ok out /\ Forall2 (selects p) us out).
  { induction us as [|u us IH]; [exists []; split; [reflexivity|constructor]|]. inversion Hus as [|? ? [H0 H1] Hus']; subst.
    destruct (IH Hus') as (out & E & F). destruct (mc_one_total (cumsum p) u (cumsum_nonempty p Hne)) as [i Hi].
    exists (i :: out). cbn [mapM bind]. rewrite Hi, E. split; [reflexivity|]. constructor; [|exact F].
    apply (mc_pdf_one_iff p u i Hne Hp H0); [rewrite Ht; exact H1|]. unfold mc_from_1d_pdf, mc_from_1d_cdf.
    destruct (cumsum p) eqn:Ec; [exfalso; eapply cumsum_nonempty; eauto|]. cbn [mapM bind]. rewrite Hi. reflexivity. }
  destruct M as (out & E & F). exists out. split; [|exact F]. unfold mc_from_1d_cdf.
  destruct (cumsum p) eqn:Ec; [exfalso; eapply cumsum_nonempty; eauto|exact E].
Qed.

Definition hit (p : list Q) (g : nat) (u : Q) : bool := inside1 (mass_before p g, mass_before p (S g)) u.

Lemma hit_count : forall p g us out, nonneg p -> (g < length p)%nat -> Forall2 (selects p) us out ->
  count_nat g out = length (filter (hit p g) us).
Proof.
  intros p g us out Hp Hg H. induction H as [|u i us out H1 H IH]; [reflexivity|]. cbn [count_nat filter].
  assert (E : hit p g u = Nat.eqb g i).
  { apply eq_true_iff_eq. unfold hit. rewrite inside1_iff, Nat.eqb_eq. cbn [fst snd]. split.
    - intros H2. eapply selects_fun; [exact Hp| |exact H1]. split; [exact Hg|exact H2].
    - intros ->. destruct H1 as (_ & H1). exact H1. }
  rewrite E. destruct (Nat.eqb g i); cbn [length]; congruence.
Qed.

Lemma prob_outside : forall lo hi, 0 <= lo -> lo <= hi -> hi <= 1 ->
  has_probability 1 (fun us => exists u, us = [u] /\ inside1 (lo, hi) u = false) (1 - (hi - lo)).
Proof.
  intros lo hi H0 H1 H2.
  apply prob_ext with (P := fun us => (exists u, us = [u] /\ u < lo) \/ (exists u, us = [u] /\ hi <= u)) (p := (lo - 0) + (1 - hi)).
  - apply prob_either.
    + apply prob_interval; [lra|exact H0|lra|]. intros u A B. split; [intros (v & [= <-] & H); lra|intros H; exists u; split; [reflexivity|lra]].
    + apply prob_interval; [lra|exact H2|lra|]. intros u A B. split; [intros (v & [= <-] & H); lra|intros H; exists u; split; [reflexivity|lra]].
    + intros us _ (u & -> & A) (v & [= <-] & B). lra.
  - intros us _. split.
    + intros [(u & -> & H)|(u & -> & H)]; exists u; (split; [reflexivity|]);
        (destruct (inside1 (lo, hi) u) eqn:E; [apply inside1_iff in E; cbn in E; lra|reflexivity]).
    + intros (u & -> & H). destruct (Qlt_le_dec u lo) as [A|A]; [left; exists u; auto|].
      destruct (Qlt_le_dec u hi) as [B|B]; [|right; exists u; auto].
      assert (inside1 (lo, hi) u = true) by (apply inside1_iff; auto). congruence.
  - ring.
Qed.

Lemma prob_inside : forall lo hi, 0 <= lo -> lo <= hi -> hi <= 1 ->
  has_probability 1 (fun us => exists u, us = [u] /\ inside1 (lo, hi) u = true) (hi - lo).
Proof.
  intros lo hi H0 H1 H2. apply prob_interval; try assumption. intros u A B. split.
  - intros (v & [= <-] & H). apply inside1_iff in H. exact H.
  - intros H. exists u. split; [reflexivity|]. apply inside1_iff. exact H.
Qed.

Lemma population_counts : forall n pdf us, pdf <> [] -> is_pdf pdf -> draws n us ->
  exists counts, sample_population n pdf MonteCarlo us = Ok counts /\ length counts = length pdf /\
    forall g, (g < length pdf)%nat -> at_ counts g (length (filter (hit pdf g) us)).
Proof.
  intros n pdf us Hne Hp [Hl Hus]. destruct (mc_selects pdf us Hne Hp Hus) as (out & E & F).
  exists (bincount out (length (cumsum pdf))). unfold sample_population. rewrite (check_pdf_ok pdf Hp). cbn [bind]. rewrite E. cbn [bind].
  assert (L : length (bincount out (length (cumsum pdf))) = length pdf).
  { rewrite cumsum_length. apply bincount_length. intros x Hx. clear -F Hx. induction F as [|u i us out H1 F IH]; [destruct Hx|].
    destruct Hx as [<-|Hx]; [apply H1|auto]. }
  split; [reflexivity|]. split; [exact L|]. intros g Hg. rewrite <- (hit_count pdf g us out (proj1 Hp) Hg F).
  rewrite <- L in Hg. destruct (lt_at _ _ _ Hg) as [c Hc]. rewrite <- (bincount_nth _ _ _ _ Hc). exact Hc.
Qed.

Lemma population_binomial : forall n pdf g p k, pdf <> [] -> is_pdf pdf -> at_ pdf g p ->
  has_probability n (fun us => exists counts, sample_population n pdf MonteCarlo us = Ok counts /\ at_ counts g k) (binomial n k p).
Proof.
  intros n pdf g p k Hne Hp Hg. assert (S1 := mass_step pdf g p Hg).
  assert (P0 : 0 <= p) by (destruct Hp as [Hn _]; eapply Hn; eauto).
  assert (M0 := mass_nonneg pdf g (proj1 Hp)). assert (M1 := mass_le pdf (S g) Hp).
  eapply prob_ext.
  - refine (prob_count (hit pdf g) p _ _ n k).
    + eapply prob_ext; [apply (prob_inside (mass_before pdf g) (mass_before pdf (S g))); lra|reflexivity|rewrite S1; ring].
    + eapply prob_ext; [apply (prob_outside (mass_before pdf g) (mass_before pdf (S g))); lra|reflexivity|rewrite S1; ring].
  - intros us Hus. destruct (population_counts n pdf us Hne Hp Hus) as (counts & E & _ & H). specialize (H g (at_lt _ _ _ _ Hg)). split.
    + intros Hk. exists counts. split; [exact E|]. rewrite <- Hk. exact H.
    + intros (counts' & E' & Hk). rewrite E in E'. injection E' as <-. eapply at_fun; eauto.
  - reflexivity.
Qed.

(** The subgroups drawn one by one. *)
Lemma assignment_law : forall pdf gs, pdf <> [] -> is_pdf pdf ->
  has_probability (length gs) (fun us => mc_from_1d_pdf pdf us = Ok gs) (product (map (entry pdf) gs)).
Proof.
  intros pdf gs Hne Hp.
  assert (A : has_probability (length gs) (fun us => Forall2 (selects pdf) us gs) (product (map (entry pdf) gs))).
  { induction gs as [|g gs IH].
    - apply prob_always. intros us [H _]. destruct us; [constructor|discriminate].
    - cbn [length map product]. change (S (length gs)) with (1 + length gs)%nat.
      eapply prob_ext; [exact (prob_both _ _ _ _ _ _ (prob_selects pdf g Hp) IH)| |reflexivity].
      intros us [Hl _]. destruct us as [|u us]; [discriminate|]. cbv beta. cbn [firstn skipn]. split.
      + intros [(v & E & H1) H2]. injection E as <-. constructor; assumption.
      + intros H. inversion H; subst. split; [exists u; auto|assumption]. }
  eapply prob_ext; [exact A| |reflexivity]. intros us [Hl Hus]. cbv beta. unfold mc_from_1d_pdf.
  destruct (mc_selects pdf us Hne Hp Hus) as (out & E & F). rewrite E. split.
  - intros F'. f_equal. clear E Hl. revert gs F' A. induction F as [|u i us out H1 F IH]; intros gs F' A; inversion F' as [|? g ? gs' H2 F2]; subst; [reflexivity|].
    rewrite (selects_fun pdf u i g (proj1 Hp) H1 H2). f_equal. inversion Hus; subst.
    clear - F F2 Hp. revert gs' F2. induction F as [|u i us out H1 F IH]; intros gs F'; inversion F' as [|? g ? gs' H2 F2]; subst; [reflexivity|].
    rewrite (selects_fun pdf u i g (proj1 Hp) H1 H2). f_equal. apply IH. exact F2.
  - intros [= <-]. exact F.
Qed.

(** ** Matrices of trials *)

Lemma prob_below : forall p b, 0 <= p -> p <= 1 ->
  has_probability 1 (fun us => exists u, us = [u] /\ Qltb u p = b) (if b : bool then p else 1 - p).
Proof.
  intros p [|] H0 H1.
  - apply prob_ext with (P := fun us => exists u, us = [u] /\ Qltb u p = true) (p := p - 0); [apply prob_interval; try lra|reflexivity|ring].
    intros u A B. rewrite <- Qltb_lt. split; [intros (v & [= <-] & H); split; [exact A|exact H]|intros [_ H]; exists u; auto].
  - apply prob_ext with (P := fun us => exists u, us = [u] /\ Qltb u p = false) (p := 1 - p); [apply prob_interval; try lra|reflexivity|ring].
    intros u A B. split.
    + intros (v & [= <-] & H). split; [|exact B]. apply Qnot_lt_le. intros C. apply Qltb_lt in C. congruence.
    + intros [H _]. exists u. split; [reflexivity|]. destruct (Qltb u p) eqn:E; [apply Qltb_lt in E; lra|reflexivity].
Qed.

Lemma trials_row : forall ps bs, length bs = length ps -> (forall k p, at_ ps k p -> 0 <= p /\ p <= 1) ->
  has_probability (length ps) (fun us => map2 (fun u p => Qltb u p) us ps = bs) (pattern bs ps).
Proof.
  induction ps as [|p ps IH]; intros [|b bs] Hl Hp; try discriminate.
  - apply prob_always. intros us _. destruct us; reflexivity.
  - unfold pattern. cbn [length combine map product fst snd]. change (S (length ps)) with (1 + length ps)%nat.
    destruct (Hp 0%nat p eq_refl) as [P0 P1].
    eapply prob_ext; [apply (prob_both _ _ _ _ _ _ (prob_below p b P0 P1) (IH bs ltac:(cbn in Hl; lia) (fun k q Hq => Hp (S k) q Hq)))| |reflexivity].
    intros us [Hu _]. destruct us as [|u us]; [discriminate|]. cbv beta. cbn [firstn skipn map2]. split.
    + intros [(v & E & H1) H2]. injection E as <-. congruence.
    + intros E. injection E as E1 E2. split; [exists u; auto|exact E2].
Qed.

Lemma map2_map_l : forall A B C D (f : B -> C -> D) (g : A -> B) l m, map2 (fun a c => f (g a) c) l m = map2 f (map g l) m.
Proof. induction l as [|a l IH]; intros [|c m]; try reflexivity. cbn. f_equal. apply IH. Qed.

(** The mask of a step row by row, with the households numbered from [h]. *)
Lemma draw_below_rows : forall (u : nat -> nat -> Q) probs h,
  map2 (fun h row => map2 (fun j p => Qltb (u h j) p) (seq 0 (length row)) row) (seq h (length probs)) probs =
  map (fun hr => map2 (fun x p => Qltb x p) (map (u (fst hr)) (seq 0 (length (snd hr)))) (snd hr)) (combine (seq h (length probs)) probs).
Proof.
  induction probs as [|row probs IH]; intros h; [reflexivity|]. cbn [length seq map2 combine map fst snd]. f_equal; [apply map2_map_l|apply IH].
Qed.

Definition matrix_draw (d : nat) (us : list Q) (h j : nat) : Q := nth j (piece d h us) 0.

Lemma matrix_row : forall d m us h, draws (m * d) us -> (h < m)%nat -> map (matrix_draw d us h) (seq 0 d) = piece d h us.
Proof.
  intros d m us h Hus Hh. destruct (draws_piece d m us h Hus Hh) as [Hl _]. unfold matrix_draw.
  transitivity (map (fun k => nth k (piece d h us) 0) (seq 0 (length (piece d h us)))); [rewrite Hl; reflexivity|apply map_nth_seq].
Qed.

Lemma matrix_unit : forall d us h j, Forall (fun u => 0 <= u /\ u < 1) us -> 0 <= matrix_draw d us h j /\ matrix_draw d us h j < 1.
Proof. intros d us h j H. apply (joint_unit d us j H h). Qed.

Lemma trials_matrix : forall d probs m, length m = length probs ->
  (forall h row, at_ probs h row -> length row = d /\ forall j p, at_ row j p -> 0 <= p /\ p <= 1) ->
  (forall h bs, at_ m h bs -> length bs = d) ->
  has_probability (length probs * d) (fun us => forall u, (forall h j, 0 <= u h j /\ u h j < 1) ->
     (forall h, (h < length probs)%nat -> map (u h) (seq 0 d) = piece d h us) -> draw_below u probs = m)
  (product (map (fun br => pattern (fst br) (snd br)) (combine m probs))).
Proof.
  intros d probs m Hm Hp Hb. eapply prob_ext.
  - apply (prob_pieces d (length probs) (map (fun br us => map2 (fun u p => Qltb u p) us (snd br) = fst br) (combine m probs))
      (map (fun br => pattern (fst br) (snd br)) (combine m probs))); [rewrite map_length, combine_length; lia|].
    clear -Hm Hp Hb. revert probs Hm Hp. induction m as [|bs m IH]; intros [|row probs] Hm Hp; try discriminate; [constructor|].
    cbn [combine map fst snd]. constructor.
    + destruct (Hp 0%nat row eq_refl) as [L1 P1]. rewrite <- L1. apply trials_row; [|exact P1]. rewrite L1. apply (Hb 0%nat bs eq_refl).
    + apply IH; [intros h b Hh; apply (Hb (S h) b Hh)|cbn in Hm; lia|intros h r Hh; apply (Hp (S h) r Hh)].
  - intros us Hus.
    assert (K : forall u, (forall h, (h < length probs)%nat -> map (u h) (seq 0 d) = piece d h us) ->
      (draw_below u probs = m <-> forall h row bs, at_ probs h row -> at_ m h bs -> map2 (fun x p => Qltb x p) (piece d h us) row = bs)).
    { intros u Hu. unfold draw_below. rewrite draw_below_rows.
      assert (G : forall k ps ms, length ms = length ps -> (forall h row, at_ ps h row -> length row = d) ->
        (forall h, (k <= h < k + length ps)%nat -> map (u h) (seq 0 d) = piece d h us) ->
        (map (fun hr => map2 (fun x p => Qltb x p) (map (u (fst hr)) (seq 0 (length (snd hr)))) (snd hr)) (combine (seq k (length ps)) ps) = ms <->
         forall h row bs, at_ ps h row -> at_ ms h bs -> map2 (fun x p => Qltb x p) (piece d (k + h) us) row = bs)).
      { intros k ps. revert k. induction ps as [|row ps IH]; intros k [|bs ms] Hlen Hr Hk; try discriminate.
        - split; [intros _ h r b H; destruct h; discriminate|reflexivity].
        - cbn [length seq combine map fst snd]. assert (Lr := Hr 0%nat row eq_refl). cbn in Hlen.
          specialize (IH (S k) ms ltac:(lia) (fun h r Hh => Hr (S h) r Hh) (fun h Hh => Hk h ltac:(cbn [length]; lia))).
          rewrite Lr, (Hk k ltac:(cbn [length]; lia)). split.
          + intros E. injection E as E1 E2. intros [|h] r b H1 H2.
            * injection H1 as <-. injection H2 as <-. rewrite Nat.add_0_r. exact E1.
            * replace (k + S h)%nat with (S k + h)%nat by lia. apply (proj1 IH E2); assumption.
          + intros H. f_equal; [rewrite <- (Nat.add_0_r k); apply (H 0%nat); reflexivity|]. apply IH. intros h r b H1 H2.
            replace (S k + h)%nat with (k + S h)%nat by lia. apply (H (S h)); assumption. }
      apply (G 0%nat probs m Hm); [intros h row Hh; apply (Hp h row Hh)|]. intros h Hh. apply Hu. lia. }
    split.
    + intros H u _ Hu. apply K; [exact Hu|]. intros h row bs H1 H2.
      apply (H h (fun us => map2 (fun u p => Qltb u p) us row = bs)). unfold at_. rewrite nth_error_map.
      assert (Ec : nth_error (combine m probs) h = Some (bs, row)).
      { clear -H1 H2. unfold at_ in *. revert m probs H1 H2. induction h as [|h IH]; intros [|b m] [|r ps] H1 H2; try discriminate; cbn in *; [congruence|apply IH; assumption]. }
      rewrite Ec. reflexivity.
    + intros H h P HP. unfold at_ in HP. rewrite nth_error_map in HP. destruct (nth_error (combine m probs) h) as [[bs row]|] eqn:Ec; [|discriminate].
      injection HP as <-. cbn [fst snd].
      assert (Hr : at_ probs h row /\ at_ m h bs).
      { clear -Ec. unfold at_. revert m probs Ec. induction h as [|h IH]; intros [|b m] [|r ps] E; try discriminate; cbn in *; [injection E as <- <-; auto|apply IH; exact E]. }
      destruct Hr as [H1 H2].
      specialize (H (matrix_draw d us) (fun h j => matrix_unit d us h j (proj2 Hus)) (fun h Hh => matrix_row d (length probs) us h Hus Hh)).
      apply (proj1 (K _ (fun h Hh => matrix_row d (length probs) us h Hus Hh)) H h row bs H1 H2).
  - reflexivity.
Qed.

(** ** Ownership *)

Lemma basic_owns : forall (u : nat -> nat -> Q) n eqd a p, at_ eqd a p ->
  exists own, sample_available_appliances Basic u n eqd = Ok own /\
    length (filter (fun row => nth a row false) own) = length (filter (fun x => Qltb x p) (map (fun h => u h a) (seq 0 n))).
Proof.
  intros u n eqd a p Ha. eexists. split; [reflexivity|].
  assert (R : forall h, nth a (map2 (fun a p => Qltb (u h a) p) (seq 0 (length eqd)) eqd) false = Qltb (u h a) p).
  { intros h. assert (G : forall k e a, at_ e a p -> nth a (map2 (fun a p => Qltb (u h a) p) (seq k (length e)) e) false = Qltb (u h (k + a)%nat) p).
    { intros k e. revert k. induction e as [|q e IH]; intros k [|b] H; try discriminate.
      - injection H as ->. cbn. rewrite Nat.add_0_r. reflexivity.
      - cbn [length seq map2 nth]. rewrite IH by exact H. f_equal. f_equal. lia. }
    apply (G 0%nat eqd a Ha). }
  induction (seq 0 n) as [|h l IH]; [reflexivity|]. cbn [map filter]. rewrite R. destruct (Qltb (u h a) p); cbn [length]; congruence.
Qed.

Lemma ownership_binomial : forall n eqd a p k, at_ eqd a p -> 0 <= p -> p <= 1 ->
  has_probability n (fun us => forall u, (forall h j, 0 <= u h j /\ u h j < 1) -> map (fun h => u h a) (seq 0 n) = us ->
    exists own, sample_available_appliances Basic u n eqd = Ok own /\ length (filter (fun row => nth a row false) own) = k)
  (binomial n k p).
Proof.
  intros n eqd a p k Ha H0 H1. eapply prob_ext; [apply (prob_count (fun u => Qltb u p) p (prob_below p true H0 H1) (prob_below p false H0 H1) n k)| |reflexivity].
  intros us [Hl Hus]. cbv beta. split.
  - intros Hk u _ E. destruct (basic_owns u n eqd a p Ha) as (own & E1 & E2). exists own. split; [exact E1|]. rewrite E2, E. exact Hk.
  - intros H. set (u := fun h (_ : nat) => nth h us 0).
    assert (U : forall h j, 0 <= u h j /\ u h j < 1).
    { intros h j. unfold u. destruct (Nat.lt_ge_cases h (length us)) as [L|L]; [|rewrite nth_overflow by exact L; lra].
      rewrite Forall_forall in Hus. apply Hus. apply nth_In. exact L. }
    assert (E : map (fun h => u h a) (seq 0 n) = us) by (unfold u; rewrite <- Hl; apply map_nth_seq).
    destruct (H u U E) as (own & E1 & E2). destruct (basic_owns u n eqd a p Ha) as (own' & E3 & E4).
    rewrite E1 in E3. injection E3 as <-. rewrite <- E2, E4, E. reflexivity.
Qed.

(** Basic sampling is a draw below a constant row of probabilities. *)
Lemma basic_draw : forall (u : nat -> nat -> Q) n eqd, sample_available_appliances Basic u n eqd = Ok (draw_below u (repeat eqd n)).
Proof.
  intros u n eqd. unfold sample_available_appliances, draw_below. f_equal. rewrite repeat_length. generalize 0%nat at 2 4 as h.
  induction n as [|n IH]; intros h; [reflexivity|]. cbn [seq map repeat map2]. f_equal. apply IH.
Qed.

Lemma ownership_matrix : forall n eqd m, length m = n -> (forall j p, at_ eqd j p -> 0 <= p /\ p <= 1) ->
  (forall h bs, at_ m h bs -> length bs = length eqd) ->
  has_probability (n * length eqd) (fun us => forall u, (forall h j, 0 <= u h j /\ u h j < 1) ->
     (forall h, (h < n)%nat -> map (u h) (seq 0 (length eqd)) = piece (length eqd) h us) -> sample_available_appliances Basic u n eqd = Ok m)
  (product (map (fun bs => pattern bs eqd) m)).
Proof.
  intros n eqd m Hm Hp Hb. assert (Lr : length (repeat eqd n) = n) by apply repeat_length.
  eapply prob_ext.
  - rewrite <- Lr at 1. apply (trials_matrix (length eqd) (repeat eqd n) m); [congruence| |exact Hb].
    intros h row Hr. apply nth_error_In, repeat_spec in Hr. subst row. split; [reflexivity|exact Hp].
  - intros us _. cbv beta. rewrite Lr. split.
    + intros H u H1 H2. rewrite basic_draw, (H u H1 H2). reflexivity.
    + intros H u H1 H2. specialize (H u H1 H2). rewrite basic_draw in H. injection H as H. exact H.
  - rewrite <- Hm. clear. induction m as [|bs m IH]; [reflexivity|]. cbn [length repeat combine map product fst snd]. rewrite IH. reflexivity.
Qed.
