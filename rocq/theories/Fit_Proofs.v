(** * Proofs about the construction of heating simulators. *)

From Coq Require Import String List ZArith QArith Bool Arith Lia Lqa.
From Verif Require Import Prelude PreludeFacts SpecBase SpecBaseFacts Sampling_Spec Sampling_Model Sampling_Proofs Law_Spec Law_Base Law_CountProofs
  Heat_Model Heat_Spec Fit_Model Fit_Spec.
Import ListNotations.

(** ** Types *)

Lemma mass_mono : forall p i j, nonneg p -> (i <= j)%nat -> mass_before p i <= mass_before p j.
Proof.
  intros p i j Hp H. induction H as [|j H IH]; [apply Qle_refl|].
  destruct (Nat.lt_ge_cases j (length p)) as [L|L].
  - destruct (nth_error p j) as [x|] eqn:E; [|apply nth_error_None in E; lia].
    rewrite (mass_step p j x E). assert (0 <= x) by (eapply Hp; exact E). lra.
  - apply Qle_trans with (mass_before p j); [exact IH|]. unfold mass_before. rewrite (firstn_all2 (n := j) p) by lia. rewrite (firstn_all2 (n := S j) p) by lia. apply Qle_refl.
Qed.

Lemma running_sums_cumsum : forall p, running_sums p (cumsum p).
Proof. intros p. split; [apply cumsum_length|]. intros i x H. apply (cumsum_at p i x H). Qed.

Lemma mc_one_type : forall p c u i, p <> [] -> nonneg p -> running_sums p c -> 0 <= u -> (mc_one c u = Ok i <-> type_of p u i).
Proof.
  intros p c u i Hne Hp [Hl Hc] Hu.
  assert (C : c <> []) by (intros ->; destruct p; [congruence|discriminate]).
  rewrite (mc_one_iff c u i C). split.
  - intros [(x & Hx & Hux & Hb)|[-> He]].
    + assert (Hi : (i < length p)%nat) by (rewrite <- Hl; apply nth_error_Some; unfold at_ in Hx; congruence).
      split; [exact Hi|]. left. split; [|rewrite <- (Hc i x Hx); exact Hux].
      destruct i as [|i]; [unfold mass_before; cbn; exact Hu|].
      destruct (nth_error c i) as [d|] eqn:E; [|apply nth_error_None in E; lia].
      rewrite <- (Hc i d E). apply (Hb i d); [lia|exact E].
    + assert (L : (0 < length p)%nat) by (destruct p; [congruence|cbn; lia]).
      split; [exact L|]. right. split; [|reflexivity].
      destruct (nth_error c (length p - 1)) as [d|] eqn:E; [|apply nth_error_None in E; lia].
      rewrite <- mass_before_all. replace (length p) with (S (length p - 1)) by lia. rewrite <- (Hc _ d E). apply (He _ d E).
  - intros [Hi [[H1 H2]|[H1 ->]]].
    + left. destruct (nth_error c i) as [x|] eqn:E; [|apply nth_error_None in E; lia].
      exists x. split; [exact E|]. split; [rewrite (Hc i x E); exact H2|]. intros j d Hj Hd.
      rewrite (Hc j d Hd). apply Qle_trans with (mass_before p i); [apply mass_mono; [exact Hp|lia]|exact H1].
    + right. split; [reflexivity|]. intros j d Hd. rewrite (Hc j d Hd).
      assert (Hj : (j < length p)%nat) by (rewrite <- Hl; apply nth_error_Some; unfold at_ in Hd; congruence).
      apply Qle_trans with (mass_before p (length p)); [apply mass_mono; [exact Hp|lia]|rewrite mass_before_all; exact H1].
Qed.

Lemma type_total : forall p u, p <> [] -> nonneg p -> 0 <= u -> exists i, type_of p u i.
Proof.
  intros p u Hne Hp Hu. destruct (mc_one_total (cumsum p) u (cumsum_nonempty p Hne)) as [i Hi].
  exists i. apply (mc_one_type p (cumsum p) u i Hne Hp (running_sums_cumsum p) Hu). exact Hi.
Qed.

Lemma type_fun : forall p u i j, p <> [] -> nonneg p -> 0 <= u -> type_of p u i -> type_of p u j -> i = j.
Proof.
  intros p u i j Hne Hp Hu H1 H2. apply (mc_one_type p (cumsum p) u i Hne Hp (running_sums_cumsum p) Hu) in H1.
  apply (mc_one_type p (cumsum p) u j Hne Hp (running_sums_cumsum p) Hu) in H2. congruence.
Qed.

Lemma mapM_type : forall p c us gs, p <> [] -> nonneg p -> running_sums p c -> Forall (fun u => 0 <= u /\ u < 1) us ->
  (mapM (mc_one c) us = Ok gs <-> Forall2 (type_of p) us gs).
Proof.
  intros p c us gs Hne Hp Hc Hus. revert gs. induction us as [|u us IH]; intros gs.
  - cbn. split; [intros [= <-]; constructor|intros H; inversion H; reflexivity].
  - inversion Hus as [|? ? [H0 _] Hus']; subst. cbn [mapM]. split.
    + destruct (mc_one c u) as [i|] eqn:E; [|discriminate]. cbn [bind]. destruct (mapM (mc_one c) us) as [l|] eqn:E2; [|discriminate].
      cbn [bind]. intros [= <-]. constructor; [apply (mc_one_type p c u i Hne Hp Hc H0); exact E|apply (IH Hus'); reflexivity].
    + intros H. inversion H as [|? i ? l H1 H2]; subst. apply (mc_one_type p c u i Hne Hp Hc H0) in H1. rewrite H1. cbn [bind].
      apply (IH Hus') in H2. rewrite H2. reflexivity.
Qed.

Lemma mc_type : forall p c us gs, p <> [] -> nonneg p -> running_sums p c -> Forall (fun u => 0 <= u /\ u < 1) us ->
  (mc_from_1d_cdf c us = Ok gs <-> Forall2 (type_of p) us gs).
Proof.
  intros p c us gs Hne Hp Hc Hus. rewrite <- (mapM_type p c us gs Hne Hp Hc Hus). unfold mc_from_1d_cdf.
  destruct c as [|x c]; [|reflexivity]. destruct Hc as [Hl _]. destruct p; [congruence|discriminate].
Qed.

Lemma types_total : forall p us, p <> [] -> nonneg p -> Forall (fun u => 0 <= u /\ u < 1) us -> exists gs, Forall2 (type_of p) us gs.
Proof.
  intros p us Hne Hp Hus. induction Hus as [|u us [H0 _] Hus [gs IH]]; [exists []; constructor|].
  destruct (type_total p u Hne Hp H0) as [i Hi]. exists (i :: gs). constructor; assumption.
Qed.

(** ** Valid probabilities *)

Lemma total_cons0 : forall x l, total (x :: l) = x + total l.
Proof. reflexivity. Qed.

Lemma nonneg_nondecreasing : forall p, nondecreasing (cumsum p) -> (forall x, at_ (cumsum p) 0 x -> 0 <= x) -> nonneg p.
Proof.
  intros p H H0 i x Hx. assert (Hi : (i < length p)%nat) by (apply nth_error_Some; unfold at_ in Hx; congruence).
  assert (S1 := mass_step p i x Hx). destruct (cumsum_at_ex p i Hi) as (c & Hc & Ec).
  destruct i as [|i].
  - specialize (H0 c Hc). rewrite Ec, S1 in H0. unfold mass_before in H0. cbn in H0. lra.
  - destruct (cumsum_at_ex p i ltac:(lia)) as (d & Hd & Ed). specialize (H i d c Hd Hc). rewrite Ec, Ed, S1 in H. lra.
Qed.

Lemma admissible_valid : forall p, admissible_cdf eps_cdf (cumsum p) <-> valid_probabilities p.
Proof.
  intros p. unfold admissible_cdf, valid_probabilities, eps_cdf. split.
  - intros (H1 & H2 & H3 & H4). assert (Hne : p <> []) by (intros ->; apply H1; reflexivity).
    split; [exact Hne|]. split.
    + apply nonneg_nondecreasing; [exact H2|]. intros x Hx. apply (H3 0%nat x Hx).
    + assert (L : (0 < length p)%nat) by (destruct p; [congruence|cbn; lia]).
      destruct (cumsum_at_ex p (length p - 1) ltac:(lia)) as (c & Hc & Ec).
      rewrite cumsum_length in H4. specialize (H4 c Hc). rewrite Ec in H4.
      replace (S (length p - 1)) with (length p) in H4 by lia. rewrite mass_before_all in H4. exact H4.
  - intros (H1 & H2 & H3 & H4). split; [apply cumsum_nonempty; exact H1|]. split; [apply cumsum_nondecreasing; exact H2|].
    assert (M : forall i x, at_ (cumsum p) i x -> 0 <= x /\ x <= total p).
    { intros i x Hx. destruct (cumsum_at p i x Hx) as [Hi E]. rewrite E. split; [apply mass_nonneg; exact H2|].
      rewrite <- mass_before_all. apply mass_mono; [exact H2|lia]. }
    split.
    + intros i x Hx. destruct (M i x Hx) as [A B]. split; [exact A|lra].
    + intros x Hx. assert (L : (0 < length p)%nat) by (destruct p; [congruence|cbn; lia]). rewrite cumsum_length in Hx.
      destruct (cumsum_at p _ x Hx) as [_ E]. replace (S (length p - 1)) with (length p) in E by lia. rewrite mass_before_all in E.
      rewrite E. auto.
Qed.

Lemma assign_types_valid : forall p us, valid_probabilities p -> assign_types p us = lift (mc_from_1d_cdf (cumsum p) us).
Proof.
  intros p us H. unfold assign_types.
  assert (E : check_valid_cdf eps_cdf [cumsum p] = Ok true).
  { apply check_valid_cdf_iff. intros [|k] row Hk; [|destruct k; discriminate]. injection Hk as <-. apply admissible_valid. exact H. }
  rewrite E. reflexivity.
Qed.

Lemma assign_types_invalid : forall p us, ~ valid_probabilities p -> assign_types p us = Fail Plain.
Proof.
  intros p us H. unfold assign_types.
  assert (E : check_valid_cdf eps_cdf [cumsum p] = Err ValueError).
  { apply check_valid_cdf_err_iff. intros A. apply H. apply admissible_valid. apply (A 0%nat). reflexivity. }
  rewrite E. reflexivity.
Qed.

Lemma assign_types_iff : forall p us gs, valid_probabilities p -> Forall (fun u => 0 <= u /\ u < 1) us ->
  (assign_types p us = Done gs <-> Forall2 (type_of p) us gs).
Proof.
  intros p us gs Hv Hus. rewrite (assign_types_valid p us Hv). destruct Hv as (Hne & Hp & _).
  rewrite <- (mc_type p (cumsum p) us gs Hne Hp (running_sums_cumsum p) Hus).
  destruct (mc_from_1d_cdf (cumsum p) us); cbn; split; congruence.
Qed.

Lemma valid_dec : forall p, valid_probabilities p \/ ~ valid_probabilities p.
Proof.
  intros p. destruct (check_valid_cdf_total eps_cdf [cumsum p]) as [H|H].
  - left. apply admissible_valid. apply (proj1 (check_valid_cdf_iff _ _) H 0%nat). reflexivity.
  - right. intros V. apply (proj1 (check_valid_cdf_err_iff _ _) H). intros [|k] row Hk; [|destruct k; discriminate].
    injection Hk as <-. apply admissible_valid. exact V.
Qed.

(** ** Columns *)

Lemma dget_in : forall A (d : list (string * A)) k c, dget String.eqb d k = Some c -> In (k, c) d.
Proof.
  induction d as [|[k' c'] d IH]; intros k c H; [discriminate|]. cbn [dget] in H. destruct (String.eqb k k') eqn:E.
  - apply String.eqb_eq in E. injection H as <-. left. congruence.
  - right. apply IH. exact H.
Qed.

Lemma dget_some : forall A (d : list (string * A)) k, (exists c, In (k, c) d) -> exists c, dget String.eqb d k = Some c.
Proof.
  induction d as [|[k' c'] d IH]; intros k [c H]; [destruct H|]. cbn [dget]. destruct (String.eqb k k') eqn:E; [eauto|].
  apply IH. destruct H as [H|H]; [|eauto]. injection H as -> ->. rewrite String.eqb_refl in E. discriminate.
Qed.

Lemma column_done : forall A (d : list (string * list A)) key types out, column d key types = Done out ->
  length out = length types /\ forall h i, at_ types h i -> exists v, at_ out h v /\ holds d key i v.
Proof.
  intros A d key types out H. unfold column in H. destruct (dget String.eqb d key) as [c|] eqn:E; [|discriminate].
  destruct (mapM (entry_of c) types) as [l|] eqn:M; [|discriminate]. injection H as <-.
  apply mapM_ok in M as [L M]. split; [exact L|]. intros h i Hi. destruct (M h i Hi) as (v & Hv & Ev). exists v. split; [exact Hv|].
  exists c. split; [apply dget_in; exact E|]. unfold entry_of in Ev. unfold at_. destruct (nth_error c i); congruence.
Qed.

Lemma column_total : forall A (d : list (string * list A)) k keys key types, has_columns d k keys -> In key keys ->
  (forall i, In i types -> (i < k)%nat) -> exists out, column d key types = Done out.
Proof.
  intros A d k keys key types H Hk Ht. destruct (H key Hk) as [Hex Hl]. destruct (dget_some _ d key Hex) as [c Hc].
  unfold column. rewrite Hc. specialize (Hl c (dget_in _ _ _ _ Hc)).
  destruct (mapM_total _ _ (entry_of c) types) as [out Ho].
  - intros i Hi. specialize (Ht i Hi). unfold entry_of. destruct (nth_error c i) as [v|] eqn:E; [eauto|]. apply nth_error_None in E. lia.
  - rewrite Ho. cbn. eauto.
Qed.

Lemma type_lt : forall p us gs, Forall2 (type_of p) us gs -> forall i, In i gs -> (i < length p)%nat.
Proof. induction 1 as [|u g us gs H HF IH]; intros i Hi; [destruct Hi|]. destruct Hi as [<-|Hi]; [apply H|auto]. Qed.

Lemma forall2_at : forall A B (R : A -> B -> Prop) l m, Forall2 R l m -> length l = length m /\ forall k a b, at_ l k a -> at_ m k b -> R a b.
Proof.
  induction 1 as [|a b l m H HF [IH1 IH2]]; [split; [reflexivity|intros [|k]; discriminate]|].
  split; [cbn; lia|]. intros [|k] a' b' Ha Hb; [injection Ha as <-; injection Hb as <-; exact H|apply (IH2 k); assumption].
Qed.

Lemma at_get : forall A (l : list A) k n, length l = n -> (k < n)%nat -> exists x, at_ l k x.
Proof. intros A l k n H Hk. unfold at_. destruct (nth_error l k) as [x|] eqn:E; [eauto|]. apply nth_error_None in E. lia. Qed.

Ltac step_done H name :=
  match type of H with
  | obind ?c _ = Done _ => destruct c as [name|] eqn:?; [cbn [obind] in H|discriminate H]
  end.

Lemma systems_done : forall t us y, assign_systems t us = Done y ->
  assign_types (t_prob t) us = Done (y_types y) /\ length (y_combi y) = length (y_types y) /\ length (y_C_cyl y) = length (y_types y) /\ length (y_loss y) = length (y_types y) /\
  forall h i, at_ (y_types y) h i -> exists m, system_at y h = Some m /\ at_ (y_combi y) h (m_combi m) /\
    at_ (read_cylinders y) h (m_cyl m) /\ system_row t i m.
Proof.
  intros t us y H. unfold assign_systems in H. step_done H types. step_done H pump. step_done H standby. step_done H flow. step_done H toW.
  step_done H fuel. step_done H sh. step_done H dhw. step_done H loss. step_done H litres. step_done H combi.
  injection H as <-. cbn [y_types y_combi y_C_cyl y_loss]. 
  repeat match goal with E : column _ _ _ = Done _ |- _ => apply column_done in E; destruct E as [? ?] end.
  split; [reflexivity|]. rewrite map_length. split; [assumption|]. split; [assumption|]. split; [assumption|]. intros h i Hi.
  repeat match goal with F : forall h i, at_ types h i -> _ |- _ => specialize (F h i Hi); destruct F as (? & ? & ?) end.
  unfold at_ in *. unfold system_at, read_cylinders. cbn [y_types y_pump y_standby y_flow y_toW y_fuel y_sh y_dhw y_loss y_C_cyl y_combi].
  rewrite nth_error_map. repeat match goal with E : nth_error _ h = Some _ |- _ => rewrite E end. cbn [option_map].
  eexists. split; [reflexivity|]. cbn [m_combi m_cyl]. split; [reflexivity|]. split.
  - rewrite map2_nth, nth_error_map. repeat match goal with E : nth_error _ h = Some _ |- _ => rewrite E end. reflexivity.
  - unfold system_row. cbn. repeat (split; [assumption|]). eexists. split; [eassumption|]. split.
    + intros v (w & -> & E). exists (w * 4200). split; [reflexivity|]. rewrite E. reflexivity.
    + intros ->. reflexivity.
Qed.

Ltac col_total :=
  match goal with
  | H : has_columns ?d ?k ?keys |- exists y, obind (column ?d ?key ?types) _ = Done y =>
      destruct (column_total _ d k keys key types H) as [? ->];
      [cbn [In]; repeat (first [left; reflexivity|right])|assumption|cbn [obind]]
  end.

Lemma systems_total : forall t us, valid_probabilities (t_prob t) -> complete_systems t -> Forall (fun u => 0 <= u /\ u < 1) us ->
  exists y, assign_systems t us = Done y.
Proof.
  intros t us Hv (H1 & H2 & H3) Hus. pose proof Hv as (Hne & Hp & _). destruct (types_total _ us Hne Hp Hus) as [gs Hgs].
  assert (Hlt := type_lt _ _ _ Hgs). unfold assign_systems. rewrite (proj2 (assign_types_iff _ us gs Hv Hus) Hgs). cbn [obind].
  do 10 col_total. eauto.
Qed.

Lemma buildings_done : forall t us s, assign_buildings t us = Done s ->
  assign_types (t_prob t) us = Done (b_types s) /\ length (b_nominal s) = length (b_types s) /\
  forall h i, at_ (b_types s) h i -> exists b nominal area, building_at s h = Some b /\ at_ (b_nominal s) h nominal /\
    at_ (b_area s) h area /\ building_row t i b nominal area.
Proof.
  intros t us s H. unfold assign_buildings in H. step_done H types. step_done H c1. step_done H c2. step_done H c3. step_done H c4.
  step_done H c5. step_done H c6. step_done H c7. step_done H c8. step_done H c9. step_done H c10.
  injection H as <-. cbn [b_types b_nominal b_area].
  repeat match goal with E : column _ _ _ = Done _ |- _ => apply column_done in E; destruct E as [? ?] end.
  split; [reflexivity|]. split; [assumption|]. intros h i Hi.
  repeat match goal with F : forall h i, at_ types h i -> _ |- _ => specialize (F h i Hi); destruct F as (? & ? & ?) end.
  unfold at_ in *. unfold building_at. cbn [b_types b_nominal b_C_em b_H_em b_C_b b_C_i b_H_bi b_H_ob b_H_v b_area b_irr].
  repeat match goal with E : nth_error _ h = Some _ |- _ => rewrite E; clear E end.
  do 3 eexists. split; [reflexivity|]. split; [reflexivity|]. split; [reflexivity|].
  unfold building_row. cbn. repeat (split; [assumption|]). assumption.
Qed.

Lemma buildings_total : forall t us, valid_probabilities (t_prob t) -> complete_buildings t -> Forall (fun u => 0 <= u /\ u < 1) us ->
  exists s, assign_buildings t us = Done s.
Proof.
  intros t us Hv H1 Hus. pose proof Hv as (Hne & Hp & _). destruct (types_total _ us Hne Hp Hus) as [gs Hgs].
  assert (Hlt := type_lt _ _ _ Hgs). unfold assign_buildings. rewrite (proj2 (assign_types_iff _ us gs Hv Hus) Hgs). cbn [obind].
  unfold complete_buildings in H1. do 10 col_total. eauto.
Qed.

(** ** Targets *)

Lemma pick_done : forall p c (values : list Q) us, p <> [] -> nonneg p -> running_sums p c -> length values = length p ->
  Forall (fun u => 0 <= u /\ u < 1) us ->
  exists r vs, mc_from_1d_cdf c us = Ok r /\ Forall2 (type_of p) us r /\ mapM (entry_of values) r = Ok vs /\
    Forall2 (fun i v => at_ values i v) r vs.
Proof.
  intros p c values us Hne Hp Hc Hl Hus. destruct (types_total p us Hne Hp Hus) as [gs Hgs].
  exists gs. destruct (mapM_total _ _ (entry_of values) gs) as [vs Hvs].
  - intros i Hi. assert (L := type_lt _ _ _ Hgs i Hi). unfold entry_of. destruct (nth_error values i) as [v|] eqn:E; [eauto|]. apply nth_error_None in E. lia.
  - exists vs. split; [apply (mc_type p c us gs Hne Hp Hc Hus); exact Hgs|]. split; [exact Hgs|]. split; [exact Hvs|].
    clear - Hvs. revert vs Hvs. induction gs as [|i gs IH]; intros vs H; cbn [mapM] in H; [injection H as <-; constructor|].
    destruct (entry_of values i) as [v|] eqn:E; [|discriminate]. cbn [bind] in H. destruct (mapM (entry_of values) gs) as [l|]; [|discriminate].
    injection H as <-. constructor; [unfold entry_of in E; unfold at_; destruct (nth_error values i); congruence|apply IH; reflexivity].
Qed.

Lemma targets_done : forall a ph pw uh uw, thermo_ok a ph pw -> Forall (fun u => 0 <= u /\ u < 1) uh -> Forall (fun u => 0 <= u /\ u < 1) uw ->
  exists rh rw vh vw, Forall2 (type_of ph) uh rh /\ Forall2 (type_of pw) uw rw /\
    Forall2 (fun i v => at_ (a_home a) i v) rh vh /\ Forall2 (fun i v => at_ (a_water a) i v) rw vw /\
    assign_targets a uh uw = Done (map2 (fun h w => Targets (Some h) (Some w) (Some (a_setpoint a))) vh vw).
Proof.
  intros a ph pw uh uw (H1 & [H2 _] & H3 & H4 & H5 & [H6 _] & H7 & H8) Hh Hw.
  destruct (pick_done ph _ _ uh H1 H2 H3 H4 Hh) as (rh & vh & E1 & F1 & E2 & F2).
  destruct (pick_done pw _ _ uw H5 H6 H7 H8 Hw) as (rw & vw & E3 & F3 & E4 & F4).
  exists rh, rw, vh, vw. repeat (split; [assumption|]). unfold assign_targets. rewrite E1. cbn [lift obind]. rewrite E2. cbn [lift obind].
  rewrite E3. cbn [lift obind]. rewrite E4. reflexivity.
Qed.

(** ** Laws of the types *)

Lemma cap_le : forall x, cap x <= 1 /\ cap x <= x.
Proof. intros x. unfold cap. destruct (Qle_bool 1 x) eqn:E; [apply Qle_bool_iff in E; lra|]. assert (~ 1 <= x) by (intros H; apply Qle_bool_iff in H; congruence). lra. Qed.
Lemma cap_iff : forall x u, u < 1 -> (u < cap x <-> u < x).
Proof. intros x u Hu. unfold cap. destruct (Qle_bool 1 x) eqn:E; [apply Qle_bool_iff in E; lra|reflexivity]. Qed.
Lemma cap_le_iff : forall x u, u < 1 -> (cap x <= u <-> x <= u).
Proof. intros x u Hu. unfold cap. destruct (Qle_bool 1 x) eqn:E; [apply Qle_bool_iff in E; lra|reflexivity]. Qed.
Lemma cap_mono : forall x y, x <= y -> cap x <= cap y.
Proof.
  intros x y H. unfold cap. destruct (Qle_bool 1 x) eqn:E; destruct (Qle_bool 1 y) eqn:F; try lra.
  - apply Qle_bool_iff in E. assert (1 <= y) by lra. apply Qle_bool_iff in H0. congruence.
  - apply Qle_bool_iff in F. assert (~ 1 <= x) by (intros A; apply Qle_bool_iff in A; congruence). lra.
Qed.
Lemma cap_nonneg : forall x, 0 <= x -> 0 <= cap x.
Proof. intros x H. unfold cap. destruct (Qle_bool 1 x); lra. Qed.

Lemma prob_type : forall p i, p <> [] -> nonneg p -> has_probability 1 (fun us => exists u, us = [u] /\ type_of p u i) (share p i).
Proof.
  intros p i Hne Hp. unfold share.
  assert (M := mass_mono p i (S i) Hp (Nat.le_succ_diag_r i)).
  assert (N := cap_nonneg _ (mass_nonneg p i Hp)). assert (C := cap_mono _ _ M). assert (U := proj1 (cap_le (mass_before p (S i)))).
  assert (T0 : 0 <= cap (total p)) by (apply cap_nonneg; rewrite <- mass_before_all; apply mass_nonneg; exact Hp).
  assert (T1 := proj1 (cap_le (total p))).
  destruct (Nat.lt_ge_cases i (length p)) as [L|L].
  - assert (A : has_probability 1 (fun us => exists u, us = [u] /\ mass_before p i <= u /\ u < mass_before p (S i)) (cap (mass_before p (S i)) - cap (mass_before p i))).
    { apply prob_interval; [exact N|exact C|exact U|]. intros u H0 H1. rewrite (cap_iff _ u H1), (cap_le_iff _ u H1). split.
      - intros (v & [= <-] & H). exact H.
      - intros H. exists u. auto. }
    destruct (Nat.eqb i 0) eqn:E.
    + apply Nat.eqb_eq in E. subst i.
      assert (B : has_probability 1 (fun us => exists u, us = [u] /\ total p <= u) (1 - cap (total p))).
      { apply prob_interval; [exact T0|exact T1|lra|]. intros u H0 H1. rewrite (cap_le_iff _ u H1). split.
        - intros (v & [= <-] & H). split; [exact H|exact H1].
        - intros [H _]. exists u. auto. }
      eapply prob_ext; [exact (prob_either _ _ _ _ _ A B ltac:(
        intros us _ (u & -> & _ & H1) (v & [= <-] & H2); assert (H3 := mass_mono p 1 (length p) Hp L); rewrite mass_before_all in H3; lra))| |reflexivity].
      intros us _. split.
      * intros [(u & -> & H)|(u & -> & H)]; exists u; (split; [reflexivity|]); split; auto.
      * intros (u & -> & _ & [H|[H _]]); [left|right]; exists u; auto.
    + eapply prob_ext; [exact A| |ring]. intros us _. apply Nat.eqb_neq in E. split.
      * intros (u & -> & H). exists u. split; [reflexivity|]. split; auto.
      * intros (u & -> & _ & [H|[_ H]]); [exists u; auto|congruence].
  - assert (E : mass_before p (S i) = mass_before p i) by (unfold mass_before; rewrite !firstn_all2 by lia; reflexivity).
    assert (E0 : Nat.eqb i 0 = false) by (apply Nat.eqb_neq; intros ->; destruct p; [congruence|cbn in L; lia]).
    rewrite E, E0. eapply prob_ext; [apply (prob_never 1 (fun us => exists u, us = [u] /\ type_of p u i))|reflexivity|ring].
    intros us _ (u & _ & H & _). lia.
Qed.

Lemma prob_types : forall p gs, p <> [] -> nonneg p -> has_probability (length gs) (fun us => Forall2 (type_of p) us gs) (product (map (share p) gs)).
Proof.
  intros p gs Hne Hp. induction gs as [|g gs IH].
  - apply prob_always. intros us [H _]. destruct us; [constructor|discriminate].
  - cbn [length map product]. change (S (length gs)) with (1 + length gs)%nat.
    eapply prob_ext; [exact (prob_both _ _ _ _ _ _ (prob_type p g Hne Hp) IH)| |reflexivity].
    intros us [Hl _]. destruct us as [|u us]; [discriminate|]. cbv beta. cbn [firstn skipn]. split.
    + intros [(v & E & H1) H2]. injection E as <-. constructor; assumption.
    + intros H. inversion H; subst. split; [exists u; auto|assumption].
Qed.

Lemma share_pdf : forall p i, is_pdf p -> share p i == entry p i.
Proof.
  intros p i [Hp Ht]. unfold share. assert (T : 1 - cap (total p) == 0).
  { unfold cap. destruct (Qle_bool 1 (total p)) eqn:E; [ring|]. rewrite Ht. ring. }
  assert (A : forall x, x <= 1 -> cap x == x).
  { intros x Hx. unfold cap. destruct (Qle_bool 1 x) eqn:E; [apply Qle_bool_iff in E; lra|reflexivity]. }
  rewrite !A by (apply mass_le; split; assumption).
  assert (B : mass_before p (S i) - mass_before p i == entry p i).
  { destruct (nth_error p i) as [x|] eqn:E.
    - rewrite (mass_step p i x E), (entry_at p i x E). ring.
    - apply nth_error_None in E. rewrite entry_out by exact E. unfold mass_before. rewrite !firstn_all2 by lia. ring. }
  rewrite B. destruct (Nat.eqb i 0); [rewrite T|]; ring.
Qed.
