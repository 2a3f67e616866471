(** * C194: readings of the appliances. *)

From Coq Require Import String List ZArith QArith Bool Arith Lia Lqa.
From Verif Require Import Prelude PreludeFacts SpecBase SpecBaseFacts Appliance_Model Appliance_Spec Appliance_ReadSpec.
From Verif Require Import Matrix_Proofs Appliance_Proofs Appliance_RunProofs Appliance_ReadProofs.
Import ListNotations.

Open Scope Q_scope.

(** The water drawn by the appliances of the parent class: the flow of each
    appliance owned and in use, nothing for the others; one row per household
    and one column per appliance. *)
Theorem C194_water : forall n s, simulates n s ->
  shaped n (length (s_apps s)) (get_current_water_consumptions s) /\
  forall h j v, sees s h j v -> exists x, at2 (get_current_water_consumptions s) h j x /\
    (v_own v = true -> 0 < v_left v -> x == ap_flow (v_app v)) /\
    (v_own v = false \/ v_left v <= 0 -> x == 0).
Proof. intros n s Hs. split; [apply water_shape; exact Hs|]. intros. apply water_at. assumption. Qed.

(** Heating this water takes 70 W per litre per minute drawn in the household and
    per kelvin. *)
Theorem C194_heat : forall n s h v, simulates n s -> at_ (dhw_heating_demand (get_current_water_consumptions s)) h v ->
  exists row, at_ (get_current_water_consumptions s) h row /\ v == 70 * total row.
Proof.
  intros n s h v Hs H. unfold dhw_heating_demand in H. apply at_map in H. destruct H as (row & Hr & ->).
  exists row. split; [exact Hr|]. rewrite <- total_qsum. field.
Qed.

(** An appliance that follows a load profile draws the value of its profile at the
    number of whole steps since the start of its cycle; positions below zero count
    from the end of the profile. *)
Theorem C194_profile : forall n s P h j v, simulates n s -> get_current_power_consumptions s = Ok P -> sees s h j v -> follows v ->
  exists p profiles profile z q, at2 P h j p /\ profiles_of s v profiles /\ at_ profiles (v_id v) profile /\ elapsed v z /\
    python_at profile z q /\ p == q.
Proof.
  intros n s P h j v Hs H Hv (F1 & F2 & F3). destruct (power_at n s P h j v Hs H Hv) as (p & Hp & _ & _ & _ & K).
  destruct (K F1 F2 F3) as (q & Hq & E). destruct (load_value_at s h j v q Hv Hq) as (profiles & profile & z & A1 & A2 & A3 & A4).
  exists p, profiles, profile, z, q. auto 10.
Qed.

(** The reading fails only when an appliance that follows a profile has none: no
    profiles for its type (KeyError), fewer profiles than its number or a
    position outside its profile (IndexError). *)
Theorem C194_refused : forall n s e, simulates n s -> get_current_power_consumptions s = Err e ->
  exists h j v, sees s h j v /\ follows v /\
    ((e = KeyError /\ forall profiles, ~ profiles_of s v profiles) \/
     (e = IndexError /\ exists profiles, profiles_of s v profiles /\
        ((length profiles <= v_id v)%nat \/
         exists profile z, at_ profiles (v_id v) profile /\ elapsed v z /\ python_outside profile z))).
Proof.
  intros n s e Hs H. destruct (power_err n s e Hs H) as (h & j & v & Hv & F & E). exists h, j, v. split; [exact Hv|]. split; [exact F|].
  eapply load_value_err; eauto.
Qed.

(** Switching on an appliance or a household that does not exist is refused. *)
Theorem C194_outside : forall n s vol idx h j, simulates n s -> flowing s -> In (h, j) idx ->
  (n <= h \/ length (s_apps s) <= j)%nat -> switch_on s vol idx = Err IndexError.
Proof. exact switch_on_outside. Qed.

Example C194_example :
  let tap := App "tap" 0 0 false 5 0 true 4 false (1#2) 0 in
  let machine := App "machine" (1#2) 0 true 7 1 false 0 false (1#2) 0 in
  let s l := ASim [tap; machine] [[true; true]] [[2; l]] [[0; 0]]%Z [[0; 3]]%nat [[0; 0]]%nat [("machine"%string, [[10; 20; 30]])] in
  let show r := match r with Ok m => Ok (map (map Qred) m) | Err e => Err e end in
  map (map Qred) (get_current_water_consumptions (s 0)) = [[4; 0]] /\
  map Qred (dhw_heating_demand (get_current_water_consumptions (s 0))) = [280] /\
  show (get_current_power_consumptions (s (3#2))) = Ok [[0; 20]] /\
  show (get_current_power_consumptions (s 4)) = Ok [[0; 30]] /\
  show (get_current_power_consumptions (s 7)) = Err IndexError /\
  show (get_current_power_consumptions (ASim [machine] [[true]] [[1]] [[0%Z]] [[3%nat]] [[0%nat]] [])) = Err KeyError /\
  switch_on (s 0) (fun _ _ => 10%nat) [(0, 2)]%nat = Err IndexError.
Proof. cbv zeta. conj_vm. Qed.

Print Assumptions C194_water.
Print Assumptions C194_heat.
Print Assumptions C194_profile.
Print Assumptions C194_refused.
Print Assumptions C194_outside.
