(** * C01-C07: sampling, distributions, population splits, external overrides. *)

From Coq Require Import List ZArith QArith Qround Bool Lia Lqa.
From Verif Require Import Prelude SpecBase Sampling_Model Sampling_Spec Sampling_Proofs.
Import ListNotations.

(** ** C01 *)

(** Every draw gets the first state whose cumulative value is strictly above it;
    when there is none, state 0.  No draw fails. *)
Theorem C01_first_above : forall cdf draws, cdf <> [] ->
  exists out, mc_from_1d_cdf cdf draws = Ok out /\ length out = length draws /\
  forall k r, at_ draws k r -> exists i, at_ out k i /\ (i < length cdf)%nat /\
     (designates cdf r i \/ (i = 0%nat /\ exhausted cdf r)).
Proof. exact mc_from_1d_cdf_all. Qed.
Print Assumptions C01_first_above.

(** The same with one cumulative row per sample. *)
Theorem C01_first_above_rows : forall rows draws,
  Forall (fun row => row <> []) rows -> length draws = length rows ->
  exists out, mc_from_cdf rows draws = Ok out /\ length out = length rows /\
  forall k row r, at_ rows k row -> at_ draws k r -> exists i, at_ out k i /\ (i < length row)%nat /\
     (designates row r i \/ (i = 0%nat /\ exhausted row r)).
Proof. exact mc_from_cdf_all. Qed.
Print Assumptions C01_first_above_rows.

(** For a non-decreasing cumulative row, being designated is lying in the
    half-open interval between the previous and the own cumulative value. *)
Theorem C01_interval : forall F r i, nondecreasing F -> 0 <= r ->
  (designates F r i <-> exists lo hi, left_end F i lo /\ at_ F i hi /\ lo <= r /\ r < hi).
Proof. exact designates_interval. Qed.
Print Assumptions C01_interval.

(** From a pdf: state [i] is returned exactly for the draws of an interval whose
    length is the probability of [i]. *)
Theorem C01_pdf_interval : forall p r i, p <> [] -> nonneg p -> 0 <= r -> r < total p ->
  (mc_from_1d_pdf p [r] = Ok [i] <->
   (i < length p)%nat /\ mass_before p i <= r /\ r < mass_before p (S i)).
Proof. exact mc_pdf_one_iff. Qed.
Print Assumptions C01_pdf_interval.

Theorem C01_interval_length : forall p i x, at_ p i x -> mass_before p (S i) - mass_before p i == x.
Proof. intros p i x H. rewrite (mass_step p i x H). ring. Qed.
Print Assumptions C01_interval_length.

Example C01_example :
  mc_from_1d_cdf [1#4; 1#4; 3#4; 1] [0; 1#4; 1#2; 3#4; 9#10] = Ok [0; 2; 2; 3; 3]%nat /\
  nondecreasing [1#4; 1#4; 3#4; 1] /\
  mc_from_1d_pdf [1#4; 0; 3#4] [1#4] = Ok [2%nat].
Proof.
  split; [vm_compute; reflexivity|]. split; [|vm_compute; reflexivity].
  intros [|[|[|[|[|i]]]]] x y Hx Hy; unfold at_ in *; simpl in *; try discriminate;
  injection Hx as <-; injection Hy as <-; lra.
Qed.

(** ** C02 *)

Theorem C02_no_zero_probability_state : forall p draws out, nonneg p -> 1 <= total p ->
  (forall k r, at_ draws k r -> 0 <= r /\ r < 1) ->
  mc_from_1d_pdf p draws = Ok out ->
  length out = length draws /\
  forall k i, at_ out k i -> exists x, at_ p i x /\ 0 < x.
Proof. exact mc_pdf_positive. Qed.
Print Assumptions C02_no_zero_probability_state.

Theorem C02_no_zero_probability_state_rows : forall rows draws out,
  (forall k row, at_ rows k row -> nonneg row /\ 1 <= total row) ->
  length draws = length rows ->
  (forall k r, at_ draws k r -> 0 <= r /\ r < 1) ->
  mc_from_pdf rows draws = Ok out ->
  length out = length rows /\
  forall k row i, at_ rows k row -> at_ out k i -> exists x, at_ row i x /\ 0 < x.
Proof. exact mc_from_pdf_rows_positive. Qed.
Print Assumptions C02_no_zero_probability_state_rows.

(** The hypothesis on the total cannot be relaxed to "passes the validity
    check": a state of probability zero is then returned. *)
Theorem C02_accepted_cdf_refuted : exists p r,
  nonneg p /\ check_valid_cdf eps_cdf [cumsum p] = Ok true /\ 0 <= r /\ r < 1 /\
  mc_from_1d_pdf p [r] = Ok [0%nat] /\ at_ p 0 0.
Proof.
  exists [0; 1999999 # 2000000], (3999999 # 4000000). split.
  - intros [|[|[|i]]] x Hx; unfold at_ in Hx; simpl in Hx; try discriminate; injection Hx as <-; lra.
  - repeat split; try (vm_compute; reflexivity); vm_compute; discriminate.
Qed.
Print Assumptions C02_accepted_cdf_refuted.

Example C02_example :
  nonneg [0; 1#2; 0; 1#2] /\ total [0; 1#2; 0; 1#2] == 1 /\
  mc_from_1d_pdf [0; 1#2; 0; 1#2] [0; 1#2] = Ok [1; 3]%nat.
Proof.
  split; [|split; vm_compute; reflexivity].
  intros [|[|[|[|[|i]]]]] x Hx; unfold at_ in Hx; simpl in Hx; try discriminate; injection Hx as <-; lra.
Qed.

(** ** C03 *)

Theorem C03_rejects : forall eps rows, 0 < eps -> eps <= 1 ->
  (rescale_pdf eps rows = Err ValueError <->
   exists k row, at_ rows k row /\ ~ (1 - eps < total row /\ total row < 1 + eps)).
Proof. exact rescale_pdf_error_iff. Qed.
Print Assumptions C03_rejects.

Theorem C03_no_other_outcome : forall eps rows,
  rescale_pdf eps rows = Err ValueError \/ exists out, rescale_pdf eps rows = Ok out.
Proof. exact rescale_pdf_total. Qed.
Print Assumptions C03_no_other_outcome.

Theorem C03_rescales : forall eps rows out, eps <= 1 -> rescale_pdf eps rows = Ok out ->
  length out = length rows /\
  forall k row, at_ rows k row -> exists row', at_ out k row' /\
    total row' == 1 /\ rescaled_by (total row) row row' /\
    (forall i x y, at_ row i x -> at_ row' i y -> (x == 0 <-> y == 0)).
Proof. exact rescale_pdf_ok. Qed.
Print Assumptions C03_rescales.

Theorem C03_idempotent : forall eps rows out, 0 < eps -> eps <= 1 -> rescale_pdf eps rows = Ok out ->
  exists out', rescale_pdf eps out = Ok out' /\ Forall2 eqQ_list out' out.
Proof. exact rescale_pdf_idem. Qed.
Print Assumptions C03_idempotent.

Example C03_example :
  (exists out, rescale_pdf (1#100) [[1#2; 101#200; 0]; [1; 0; 0]] = Ok out) /\
  rescale_pdf (1#100) [[1#2; 1#2]; [1#2; 51#100]] = Err ValueError.
Proof. split; [eexists|]; vm_compute; reflexivity. Qed.

(** ** C04 *)

Theorem C04_check_accepts : forall eps rows,
  (check_valid_cdf eps rows = Ok true <-> forall k row, at_ rows k row -> admissible_cdf eps row).
Proof. exact check_valid_cdf_iff. Qed.
Print Assumptions C04_check_accepts.

Theorem C04_check_rejects : forall eps rows,
  check_valid_cdf eps rows = Err ValueError <-> ~ forall k row, at_ rows k row -> admissible_cdf eps row.
Proof. exact check_valid_cdf_err_iff. Qed.
Print Assumptions C04_check_rejects.

Theorem C04_rescale_cdf_rejects : forall eps rows,
  (rescale_cdf eps rows = Err ValueError <->
   exists k row, at_ rows k row /\ (row = [] \/ exists c, at_ row (length row - 1) c /\ ~ (1 - eps < c /\ c < 1 + eps))).
Proof. exact rescale_cdf_error_iff. Qed.
Print Assumptions C04_rescale_cdf_rejects.

Theorem C04_rescale_cdf : forall eps rows out, eps <= 1 -> rescale_cdf eps rows = Ok out ->
  length out = length rows /\
  forall k row, at_ rows k row -> exists row' c, at_ out k row' /\ at_ row (length row - 1) c /\
    rescaled_by c row row' /\
    (forall y, at_ row' (length row' - 1) y -> y == 1) /\
    (nondecreasing row -> nondecreasing row').
Proof. exact rescale_cdf_ok. Qed.
Print Assumptions C04_rescale_cdf.

Example C04_example :
  check_valid_cdf eps_cdf [[0; 1#3; 1#3; 1]; [1#2; 9999999#10000000; 1; 1]] = Ok true /\
  check_valid_cdf eps_cdf [[0; 1#3; 1#4; 1]] = Err ValueError /\
  check_valid_cdf eps_cdf [[0; 1#3; 999999#1000000]] = Err ValueError /\
  check_valid_cdf eps_cdf [[-(1#10); 1#3; 1]] = Err ValueError /\
  (exists out, rescale_cdf (1#10) [[1#2; 19#20]] = Ok out).
Proof. repeat split; try (vm_compute; reflexivity). eexists; vm_compute; reflexivity. Qed.

(** ** C05 *)

Theorem C05_population_conserved : forall n pdf algo draws counts,
  length draws = n -> sample_population n pdf algo draws = Ok counts -> total_nat counts = n.
Proof. exact sample_population_total. Qed.
Print Assumptions C05_population_conserved.

Example C05_example :
  sample_population 4 [1#2; 1#4; 1#4] MonteCarlo [1#10; 6#10; 9#10; 2#10] = Ok [2; 1; 1]%nat /\
  sample_population 4 [1#2; 1#4; 1#4] RealPopulation [0;0;0;0] = Ok [2; 1; 1]%nat.
Proof. split; vm_compute; reflexivity. Qed.

(** ** C06 *)

Theorem C06_deterministic_split : forall n pdf draws, (1 <= n)%nat -> is_pdf pdf ->
  exists counts, sample_population n pdf RealPopulation draws = Ok counts /\
  length counts = length pdf /\
  (forall k p, at_ counts 0 k -> at_ pdf 0 p -> Z.of_nat k = (Qfloor (p * inject_Z (Z.of_nat n - 1)) + 1)%Z) /\
  (forall i k p, (0 < i)%nat -> at_ counts i k -> at_ pdf i p ->
     inject_Z (Z.of_nat k) - p * inject_Z (Z.of_nat n - 1) < 1 /\
     -(1) < inject_Z (Z.of_nat k) - p * inject_Z (Z.of_nat n - 1) /\
     (p == 0 -> k = 0%nat)).
Proof. exact real_population_quota. Qed.
Print Assumptions C06_deterministic_split.

(** The exact sizes: subgroup [i] receives the grid points lying in its
    cumulative interval. *)
Theorem C06_exact_sizes : forall n pdf draws, (1 <= n)%nat -> is_pdf pdf ->
  exists counts, sample_population n pdf RealPopulation draws = Ok counts /\
  length counts = length pdf /\
  (forall k, at_ counts 0 k -> Z.of_nat k = points_up_to n (mass_before pdf 1)) /\
  (forall i k, at_ counts (S i) k ->
     Z.of_nat k = (points_up_to n (mass_before pdf (S (S i))) - points_up_to n (mass_before pdf (S i)))%Z).
Proof. exact real_population_exact. Qed.
Print Assumptions C06_exact_sizes.

(** Two natural strengthenings fail.  A first subgroup of share zero receives a
    household. *)
Theorem C06_first_share_zero_refuted : exists n pdf draws counts k,
  is_pdf pdf /\ sample_population n pdf RealPopulation draws = Ok counts /\
  at_ pdf 0 0 /\ at_ counts 0 k /\ (0 < k)%nat.
Proof.
  exists 2%nat, [0; 1], [0; 0], [1; 1]%nat, 1%nat. repeat split; try (vm_compute; reflexivity).
  - intros [|[|[|i]]] x Hx; unfold at_ in Hx; simpl in Hx; try discriminate; injection Hx as <-; lra.
Qed.
Print Assumptions C06_first_share_zero_refuted.

(** With a pdf that passes the validity check without summing to exactly one,
    the result has one entry more than there are subgroups. *)
Theorem C06_accepted_pdf_refuted : exists n pdf draws counts,
  nonneg pdf /\ check_valid_cdf eps_cdf [cumsum pdf] = Ok true /\
  sample_population n pdf RealPopulation draws = Ok counts /\
  length counts = S (length pdf).
Proof.
  exists 2%nat, [1#2; 999999#2000000], [0; 0], [1; 0; 1]%nat. split.
  - intros [|[|[|i]]] x Hx; unfold at_ in Hx; simpl in Hx; try discriminate; injection Hx as <-; lra.
  - repeat split; vm_compute; reflexivity.
Qed.
Print Assumptions C06_accepted_pdf_refuted.

Example C06_example :
  is_pdf [1#3; 0; 2#3] /\
  sample_population 10 [1#3; 0; 2#3] RealPopulation [] = Ok [4; 0; 6]%nat.
Proof.
  split; [split|]; try (vm_compute; reflexivity).
  intros [|[|[|[|i]]]] x Hx; unfold at_ in Hx; simpl in Hx; try discriminate; injection Hx as <-; lra.
Qed.

(** ** C07 *)

Theorem C07_array : forall A (base : list A) ext,
  (assign_external_array base None = Ok base) /\
  (length ext <> length base -> assign_external_array base (Some ext) = Err IndexError) /\
  (length ext = length base -> exists out, assign_external_array base (Some ext) = Ok out /\ overridden base ext out).
Proof. exact assign_external_array_spec. Qed.
Print Assumptions C07_array.

Theorem C07_dict_keys_kept : forall K A (eqb : K -> K -> bool) (eqb_eq : forall a b, eqb a b = true <-> a = b)
  items (base out : list (K * list A)),
  assign_external_dict eqb base (Some items) = Ok out -> map fst out = map fst base.
Proof. intros K A eqb H items base out. apply assign_items_keys. Qed.
Print Assumptions C07_dict_keys_kept.

Theorem C07_dict_other_keys : forall K A (eqb : K -> K -> bool) (eqb_eq : forall a b, eqb a b = true <-> a = b)
  items (base out : list (K * list A)) k,
  assign_external_dict eqb base (Some items) = Ok out -> ~ In k (map fst items) ->
  dget eqb out k = dget eqb base k.
Proof. intros K A eqb H items base out k. apply assign_items_frame; auto. Qed.
Print Assumptions C07_dict_other_keys.

Theorem C07_dict_values : forall K A (eqb : K -> K -> bool) (eqb_eq : forall a b, eqb a b = true <-> a = b)
  items (base out : list (K * list A)) k ext,
  NoDup (map fst items) -> assign_external_dict eqb base (Some items) = Ok out ->
  In (k, Some ext) items ->
  exists b b', dget eqb base k = Some b /\ dget eqb out k = Some b' /\ overridden b ext b'.
Proof.
  intros K A eqb H items base out k ext Hnd Hok Hin.
  destruct (assign_items_value _ _ eqb H items base out k (Some ext) Hnd Hok Hin) as (b & b' & H1 & H2 & H3).
  exists b, b'. repeat split; auto;
  destruct (assign_external_array_spec A b ext) as (_ & Hne & Heq);
  (destruct (Nat.eq_dec (length ext) (length b)) as [E|E];
   [destruct (Heq E) as (o & Ho & Hv); rewrite H2 in Ho; injection Ho as <-; destruct Hv as (? & ? & ?); auto
   |rewrite (Hne E) in H2; discriminate]).
Qed.
Print Assumptions C07_dict_values.

Theorem C07_dict_unknown_key : forall K A (eqb : K -> K -> bool) (eqb_eq : forall a b, eqb a b = true <-> a = b)
  items (base : list (K * list A)) k v,
  In (k, v) items -> dget eqb base k = None -> NoDup (map fst items) ->
  (forall k' v' b, In (k', v') items -> dget eqb base k' = Some b ->
      match v' with None => True | Some e => length e = length b end) ->
  assign_external_dict eqb base (Some items) = Err KeyError.
Proof. intros K A eqb H items base k v. apply assign_items_keyerror; auto. Qed.
Print Assumptions C07_dict_unknown_key.

Example C07_example :
  assign_external_array [1; 2; 3]%Z (Some [None; Some 7%Z; None]) = Ok [1; 7; 3]%Z /\
  assign_external_dict Nat.eqb [(0, [1; 2]%Z); (1, [3; 4]%Z)]%nat (Some [(1%nat, Some [None; Some 9%Z])])
    = Ok [(0, [1; 2]%Z); (1, [3; 9]%Z)]%nat /\
  assign_external_dict Nat.eqb [(0, [1; 2]%Z)]%nat (Some [(5%nat, Some [None; Some 9%Z])]) = Err KeyError.
Proof. repeat split; vm_compute; reflexivity. Qed.
