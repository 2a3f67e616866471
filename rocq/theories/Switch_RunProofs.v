(** * Proofs about whole runs of the simulators whose tables follow the calendar. *)

From Coq Require Import String List ZArith QArith Bool Arith Lia.
From Coq Require Import ZifyBool ZifyNat.
From Verif Require Import Prelude PreludeFacts SpecBase SpecBaseFacts Sampling_Model Sampling_Spec Sampling_Proofs Parse_Model Parse_Spec
  Sparse_Model Activity_Model Activity_Spec Activity_Proofs Activity_LabelProofs Activity_HouseProofs Time_Model Time_Spec Time_Proofs
  Subgroup_Model Subgroup_Spec Switch_Model Switch_Spec Switch_IndSpec Switch_ObsSpec Switch_Proofs Switch_CrestProofs Switch_IndProofs Switch_MidnightProofs.
Import ListNotations.

Ltac Zify.zify_post_hook ::= Z.div_mod_to_equations.

Section CrestRuns.
  Variables (n : nat) (d : crest_data) (start : Z) (algo : sampling_algo) (w : list Q) (v : nat -> nat -> Q) (u : Z -> nat -> nat -> Q).
  Hypothesis tables : crest_tables d.
  Hypothesis draws : forall t q, unit_draws (u t q).
  Hypothesis draws0 : forall q, unit_draws (v q).
  Hypothesis refresh : (0 <= cd_refresh d < a_day)%Z.
  Hypothesis sampling : length w = n.

  Lemma crest_population : forall counts, sample_population n (cd_pdf d) algo w = Ok counts ->
    length counts = length (cd_residents d) -> (0 < n)%nat ->
    exists s0, crest_make n d start algo false w v u = Ok s0 /\ now s0 = start /\ step_size s0 = ten /\
      (exists b, latest_occurrence (cd_refresh d) start b /\ whole_steps ten b start (ticks s0)) /\
      length (cs_residents (user s0)) = n /\
      (forall g r h, at_ (cd_residents d) g r -> in_group counts g h -> at_ (cs_residents (user s0)) h r).
  Proof.
    intros counts E Hl Hn. destruct (crest_make_ok d u start algo w v tables draws draws0 refresh n counts E Hl sampling Hn)
      as (s0 & k & E0 & Hinv & Hnow & Hb & _ & Hr & _). exists s0. split; [exact E0|]. split; [exact Hnow|].
    split; [apply Hinv|]. split; [exact Hb|]. rewrite Hr. destruct (expand_residents_ok (cd_residents d) counts (eq_sym Hl)) as [H1 H2].
    split; [|exact H2]. rewrite H1. eapply sample_population_total; eauto.
  Qed.

  Variable s0 : tsim crest_state.
  Hypothesis made : crest_make n d start algo false w v u = Ok s0.
  Notation first := (start - ticks s0 * ten)%Z.

  Lemma crest_at : forall m, exists s k, iterate m (crest_step d u) s0 = Ok s /\ crest_inv d start first k s /\
    now s = (start + Z.of_nat m * ten)%Z /\ keys (user s) = keys (user s0) /\ cs_residents (user s) = cs_residents (user s0).
  Proof.
    intros m. destruct (crest_made d u start algo w v tables draws draws0 refresh n false s0 sampling made)
      as (counts & k0 & _ & _ & _ & _ & Hinv & Hnow & _ & _).
    destruct (crest_run_ok d u start first tables draws m k0 s0 Hinv) as (s & k & E & Hinv' & Ht & Hk & Hr).
    exists s, k. split; [exact E|]. split; [exact Hinv'|]. split; [|auto]. destruct Hinv' as [-> _]. rewrite Ht. lia.
  Qed.

  Lemma crest_execution : forall m, exists s s' days days' k,
    iterate m (crest_step d u) s0 = Ok s /\ crest_step d u s = Ok s' /\
    now s = (start + Z.of_nat m * ten)%Z /\ now s' = (now s + ten)%Z /\ ticks s = (ticks s0 + Z.of_nat m)%Z /\
    keys (user s') = keys (user s0) /\ cs_residents (user s') = cs_residents (user s0) /\
    in_force (cd_refresh d) start first (now s) days /\ in_force (cd_refresh d) start first (now s') days' /\
    matrix_number (cd_refresh d) start first (now s) k /\
    length (cs_subs (user s)) = length (cs_subs (user s')) /\
    forall q b, at_ (cs_subs (user s)) q b -> exists b', at_ (cs_subs (user s')) q b' /\ sub_moves d days days' k (u (ticks s) q) b b'.
  Proof.
    intros m. destruct (crest_at m) as (s & k & E & Hinv & Hnow & Hk & Hr).
    destruct (crest_step_ok d u start first tables draws k s Hinv) as (s' & k' & E' & Hinv' & Ht & Hk' & Hr' & Hq).
    exists s, s', (weekdays_of (cs_type (user s))), (weekdays_of (cs_type (user s'))), k.
    split; [exact E|]. split; [exact E'|]. split; [exact Hnow|].
    destruct Hinv as (Hn & _ & _ & Hin & Hm & _). destruct Hinv' as (Hn' & _ & _ & Hin' & _).
    split; [rewrite Hn', Hn, Ht; lia|]. split; [unfold ten in *; lia|]. split; [congruence|]. split; [congruence|]. split; [exact Hin|]. split; [exact Hin'|].
    split; [exact Hm|]. split; [|exact Hq]. rewrite <- (map_length (fun b => (b_key b, c_n (b_chain b))) (cs_subs (user s))).
    change (length (keys (user s)) = length (cs_subs (user s'))). rewrite <- Hk'. unfold keys. apply map_length.
  Qed.

  Lemma crest_first : cd_refresh d = 0%Z -> (ten | start)%Z -> first = (start - start mod a_day)%Z.
  Proof.
    intros H0 [j Hj]. destruct (crest_made d u start algo w v tables draws draws0 refresh n false s0 sampling made)
      as (counts & k0 & _ & _ & _ & _ & _ & _ & (b & (H1 & H2 & H3) & Hw) & _).
    rewrite H0 in *. assert (Hb : b = (start - start mod a_day)%Z).
    { specialize (H3 (start - start mod a_day)%Z). change us_per_day with a_day in *. unfold a_day in *. lia. }
    subst b. unfold whole_steps in Hw. unfold a_day, ten in *. lia.
  Qed.

  Lemma crest_midnight : cd_refresh d = 0%Z -> (ten | start)%Z -> forall m,
    let midnight := (start - start mod a_day)%Z in let t := (start + Z.of_nat m * ten)%Z in
    exists s s' days days' k, iterate m (crest_step d u) s0 = Ok s /\ crest_step d u s = Ok s' /\ now s = t /\
      (t mod a_day <> 0 -> days = alike t)%Z /\ (t mod a_day = 0 -> midnight < t -> days = alike (t - 1))%Z /\ (t = midnight -> days = alike t)%Z /\
      days' = alike t /\
      ((exists b, turn midnight t b) -> (Z.of_nat k mod 144 = slot t)%Z) /\
      ((forall b, ~ turn midnight t b) -> (Z.of_nat k mod 144 = (slot t + 1) mod 144)%Z) /\
      forall q b, at_ (cs_subs (user s)) q b -> exists b', at_ (cs_subs (user s')) q b' /\ sub_moves d days days' k (u (ticks s) q) b b'.
  Proof.
    intros H0 Hten m midnight t. destruct (crest_execution m) as (s & s' & days & days' & k & E & E' & Hnow & Hnow' & _ & _ & _ & Hin & Hin' & Hm & _ & Hq).
    change (start + Z.of_nat m * ten)%Z with t in Hnow. rewrite Hnow in Hin, Hm, Hnow'. rewrite Hnow' in Hin'. rewrite H0 in Hin, Hin', Hm.
    rewrite (crest_first H0 Hten) in Hin, Hin', Hm. change (start - start mod a_day)%Z with midnight in Hin, Hin', Hm.
    assert (Hmid : (midnight mod a_day = 0)%Z) by (unfold midnight, a_day; lia).
    assert (Hday : (start / a_day = midnight / a_day)%Z) by (unfold midnight, a_day; lia).
    assert (Hge : (midnight <= t)%Z) by (unfold midnight, t, a_day, ten; lia).
    assert (Hdiv : (ten | t - midnight)%Z).
    { destruct Hten as [j Hj]. exists (j - (start / a_day) * 144 + Z.of_nat m)%Z. unfold midnight, t, a_day, ten in *. lia. }
    destruct (in_force_midnight start midnight Hmid Hday t Hge) as (d1 & G1 & G2 & G3 & G4).
    pose proof (in_force_fun _ _ _ _ _ _ Hin G1) as X1. subst d1.
    destruct (in_force_midnight start midnight Hmid Hday (t + ten)%Z ltac:(unfold ten; lia)) as (d2 & F1 & F2 & F3 & F4).
    pose proof (in_force_fun _ _ _ _ _ _ Hin' F1) as X2. subst d2.
    destruct (number_midnight start midnight Hmid Hday t k Hdiv Hm) as [N1 N2].
    exists s, s', days, days', k. split; [exact E|]. split; [exact E'|]. split; [exact Hnow|]. split; [exact G2|]. split; [exact G3|]. split; [exact G4|].
    split; [|split; [exact N1|split; [exact N2|exact Hq]]].
    destruct Hdiv as [j Hj].
    destruct (Z.eq_dec ((t + ten) mod a_day) 0) as [Hz|Hz].
    - rewrite (F3 Hz ltac:(unfold ten; lia)). apply alike_day. unfold a_day, ten in *. lia.
    - rewrite (F2 Hz). apply alike_day. unfold a_day, ten in *. lia.
  Qed.

  Lemma crest_misaligned : ~ (ten | start - cd_refresh d)%Z -> forall m, exists s s' k,
    iterate m (crest_step d u) s0 = Ok s /\ crest_step d u s = Ok s' /\ ((Z.of_nat k - 1) * ten = now s - first)%Z /\
    forall q b, at_ (cs_subs (user s)) q b -> exists b', at_ (cs_subs (user s')) q b' /\
      sub_moves d (alike start) (alike start) k (u (ticks s) q) b b'.
  Proof.
    intros Hno m. destruct (crest_execution m) as (s & s' & days & days' & k & E & E' & Hnow & Hnow' & _ & _ & _ & Hin & Hin' & Hm & _ & Hq).
    assert (Hnever : forall t b, ~ refreshed (cd_refresh d) first t b).
    { intros t b. apply never_refreshed. intros [j Hj]. apply Hno. exists (j + ticks s0)%Z. unfold ten in *. lia. }
    destruct Hin as [(b & [H _] & _)|[_ ->]]; [exfalso; exact (Hnever _ _ H)|].
    destruct Hin' as [(b & [H _] & _)|[_ ->]]; [exfalso; exact (Hnever _ _ H)|].
    destruct Hm as [(b & [[H _] _] & _)|[_ Hk]]; [exfalso; exact (Hnever _ _ H)|].
    exists s, s', k. auto.
  Qed.

  Lemma crest_labelled : forall m, exists s days ls,
    iterate m (crest_step d u) s0 = Ok s /\ in_force (cd_refresh d) start first (now s) days /\
    crest_labels (user s) = Ok ls /\ length ls = n /\ length (cs_residents (user s)) = n /\
    (forall f, crest_getter f (user s) = Ok (map f ls)) /\
    forall h lab r, at_ ls h lab -> at_ (cs_residents (user s)) h r ->
      exists tpms labels pdf, cd_load d r days = Ok (tpms, labels, pdf) /\ In lab labels.
  Proof.
    intros m. destruct (crest_at m) as (s & k & E & Hinv & Hnow & Hk & Hr).
    destruct (crest_made d u start algo w v tables draws draws0 refresh n false s0 sampling made)
      as (counts & k0 & _ & Es & Hlen & _ & _ & _ & _ & Hk0 & Hr0 & _).
    destruct Hinv as (_ & _ & _ & Hin & _ & Hl & _). destruct (labels_all _ k (cs_subs (user s)) Hl) as (lls & El & Hf & Hlc & Hlab).
    pose proof (sample_population_total n (cd_pdf d) algo w counts sampling Es) as Htot.
    assert (Hres : cs_residents (user s) = concat (map (fun p => repeat (fst p) (snd p)) (keys (user s)))).
    { rewrite Hk, Hk0, (expand_filter (cd_residents d) counts), Hr, Hr0 by congruence. reflexivity. }
    exists s, (weekdays_of (cs_type (user s))), (concat lls). split; [exact E|]. split; [exact Hin|].
    unfold crest_labels. rewrite El. cbn [bind]. split; [reflexivity|]. split; [|split; [|split]].
    - rewrite Hlc, <- Htot, <- (list_sum_filter (cd_residents d) counts), <- Hk0, <- Hk by congruence. unfold keys. rewrite map_map. reflexivity.
    - rewrite Hr, Hr0. destruct (expand_residents_ok (cd_residents d) counts (eq_sym Hlen)) as [-> _]. exact Htot.
    - intros f. unfold crest_getter. rewrite (Hf f). cbn [bind]. rewrite concat_map_map. reflexivity.
    - intros h lab r H1 H2. rewrite Hres in H2. eapply Hlab; [exact H1|exact H2].
  Qed.
End CrestRuns.

(** The labels written with two digits: occupants, then active persons. *)
Lemma digits_occupancy : forall r h a, (0 <= h <= r)%Z -> (0 <= a <= r)%Z -> (r <= 9)%Z ->
  crest_occupancy (10 * h + a) = h /\ crest_active (10 * h + a) = Z.min h a /\
  crest_thermal (10 * h + a) = (147 * Z.min h a + 84 * (h - Z.min h a))%Z.
Proof. intros r h a H1 H2 H3. unfold crest_thermal, crest_occupancy, crest_active. lia. Qed.

Section IndRuns.
  Variables (cmp : string -> string -> comparison) (d : ind_data) (kind : day_types) (u : Z -> nat -> nat -> Q) (v : nat -> nat -> Q).
  Variables (persons : list (subgroup * nat)) (start : Z) (kw : option Z).
  Hypothesis ord : total_order cmp.
  Hypothesis flagged : flags kind = ind_flags d.
  Hypothesis tables : ind_tables d kind persons.
  Hypothesis draws : forall t q, unit_draws (u t q).
  Hypothesis draws0 : forall q, unit_draws (v q).
  Hypothesis refresh : (0 <= id_refresh d < a_day)%Z.
  Hypothesis late : (a_day <= start)%Z.

  Lemma ind_population : persons <> [] -> (forall z, kw = Some z -> z = ten) ->
    exists s0, ind_make cmp d persons start kw v u = Ok s0 /\ now s0 = start /\ step_size s0 = ten /\
      (exists b, latest_occurrence (id_refresh d) start b /\ whole_steps ten b start (ticks s0)) /\
      length (user s0) = length persons /\
      (forall q b g n, at_ (user s0) q b -> at_ persons q (g, n) -> c_n (b_chain b) = n /\ length (c_states (b_chain b)) = n).
  Proof.
    intros Hne Hkw. destruct (ind_make_ok cmp d kind u v persons start kw ord flagged tables draws draws0 refresh late Hne Hkw)
      as (s0 & k & E & Hinv & Hnow & _ & Hb & _). exists s0. split; [exact E|]. split; [exact Hnow|].
    destruct Hinv as (_ & _ & Hst & _ & Hl & Hlen & Hk). split; [exact Hst|]. split; [exact Hb|]. split; [exact Hlen|].
    intros q b g n H1 H2. destruct (Hk q b g n H1 H2) as [_ Hn]. split; [exact Hn|]. rewrite Forall_forall in Hl.
    destruct (Hl b (at_in _ _ _ _ H1)) as (tpms & labels & pdf & _ & _ & _ & _ & _ & Hs). congruence.
  Qed.

  Variable s0 : tsim (list (sub string subgroup)).
  Hypothesis made : ind_make cmp d persons start kw v u = Ok s0.
  Notation first := (start - ticks s0 * ten)%Z.

  Lemma ind_execution : forall m, exists s s' k,
    iterate m (ind_step cmp d u) s0 = Ok s /\ ind_step cmp d u s = Ok s' /\
    now s = (start + Z.of_nat m * ten)%Z /\ now s' = (now s + ten)%Z /\ ticks s = (ticks s0 + Z.of_nat m)%Z /\
    renewed_number (id_aware d) (id_refresh d) first (now s) k /\
    length (user s) = length persons /\ length (user s') = length persons /\
    (forall q b g n, at_ (user s) q b -> at_ persons q (g, n) ->
       key_in_force (id_aware d) kind (id_quarters d) (id_refresh d) first (now s) g (b_key b) /\ c_n (b_chain b) = n) /\
    forall q b, at_ (user s) q b -> exists b', at_ (user s') q b' /\
      ind_moves d ((now s mod a_day)%Z = id_refresh d) k (u (ticks s) q) b b'.
  Proof.
    intros m. destruct (ind_made cmp d kind u v persons start kw ord flagged tables draws draws0 refresh late s0 made)
      as (k0 & _ & _ & Hinv & Hnow & Hf & _).
    destruct (ind_run_ok cmp d kind u first persons ord flagged tables draws Hf m k0 s0 Hinv) as (s & k & E & Hinv' & Ht).
    destruct (ind_step_ok cmp d kind u first persons ord flagged tables draws Hf k s Hinv') as (s' & k' & E' & Hinv'' & Ht' & Hq).
    exists s, s', k. split; [exact E|]. split; [exact E'|].
    destruct Hinv' as (Hn & _ & _ & Hm & _ & Hlen & Hk). destruct Hinv'' as (Hn' & _ & _ & _ & _ & Hlen' & _).
    split; [rewrite Hn, Ht; lia|]. split; [rewrite Hn', Hn, Ht'; lia|]. split; [exact Ht|]. split; [exact Hm|]. split; [exact Hlen|]. split; [exact Hlen'|].
    split; [exact Hk|]. exact Hq.
  Qed.
End IndRuns.
