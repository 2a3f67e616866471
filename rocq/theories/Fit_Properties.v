(** * Properties of the construction of heating simulators (C171-C175). *)

From Coq Require Import String List ZArith QArith Bool Arith Lia Lqa.
From Verif Require Import Prelude PreludeFacts SpecBase SpecBaseFacts Sampling_Spec Sampling_Model Sampling_Proofs Law_Spec Law_Base
  Heat_Model Heat_Spec Heat_Proofs Heat_Properties Fit_Model Fit_Spec Fit_Proofs Fit_FiveProofs Fit_LawProofs.
Import ListNotations.
Open Scope Q_scope.

(** A small data set: a gas combi boiler and a heat pump, a house and a flat. *)
Definition systems0 : table := Table [(3 # 4); (1 # 4)]
  [("pump_power", [Some 80; Some 20]); ("standby_power", [Some 10; Some 5]); ("fuel_flow_rate", [Some (261 # 100); Some (3 # 2)]);
   ("flow_rate_to_W", [Some 29000; Some 1500]); ("heat_output_sh", [Some 21750; Some 3600]); ("heat_output_dhw", [Some 21750; Some 5925]);
   ("cyl_loss", [Some 0; Some (1 # 2)]); ("cyl_volume", [Some 1; Some 50])]%string
  [("fuel_type", ["Mainsgas"; "Electricity"])]%string [("is_combi", [true; false])]%string.
Definition buildings0 : table := Table [(1 # 2); (1 # 2)]
  [("emitters_target_temperature", [Some 50; Some 45]); ("emitters_capacitance", [Some 176511; Some 90000]); ("emitters_transfer_coef", [Some 100; Some 60]);
   ("ext_capacitance", [Some 15647706; Some 9000000]); ("int_capacitance", [Some 530743; Some 300000]); ("build_int_transfer_coef", [Some 301; Some 200]);
   ("out_build_transfer_coef", [Some 216; Some 90]); ("ventilation_transfer_coef", [Some 10; Some 7]); ("floor_area", [Some 136; Some 60]);
   ("irradiance_multiplier", [Some 5; Some 2])]%string [] [].
Definition thermo0 : thermo := Thermo [(1 # 4); 1] [18; 21] [1] [50] 50 bands0.
Definition data0 : heating_data := HData systems0 thermo0 buildings0.

(** ** C171: one row of the data per household *)

Theorem C171_system : forall t n us y h, draws n us -> assign_systems t us = Done y -> (h < n)%nat ->
  exists u i m, at_ us h u /\ type_of (t_prob t) u i /\ at_ (y_types y) h i /\ system_at y h = Some m /\ system_row t i m.
Proof.
  intros t n us y h [Hl Hus] Hy Hh. destruct (systems_done _ _ _ Hy) as (Ty & _ & _ & _ & R).
  destruct (valid_dec (t_prob t)) as [V|V]; [|rewrite (assign_types_invalid _ us V) in Ty; discriminate].
  apply (proj1 (assign_types_iff _ _ _ V Hus)) in Ty. destruct (at_get _ us h n Hl Hh) as [u Hu].
  destruct (forall2_get _ _ _ _ _ _ _ Ty Hu) as (i & Hi & Ti). destruct (R h i Hi) as (m & Hm & _ & _ & Row).
  exists u, i, m. auto.
Qed.

Theorem C171_building : forall t n us s h, draws n us -> assign_buildings t us = Done s -> (h < n)%nat ->
  exists u i b nominal area, at_ us h u /\ type_of (t_prob t) u i /\ at_ (b_types s) h i /\ building_at s h = Some b /\
    at_ (b_nominal s) h nominal /\ at_ (b_area s) h area /\ building_row t i b nominal area.
Proof.
  intros t n us s h [Hl Hus] Hs Hh. destruct (buildings_done _ _ _ Hs) as (Ty & _ & R).
  destruct (valid_dec (t_prob t)) as [V|V]; [|rewrite (assign_types_invalid _ us V) in Ty; discriminate].
  apply (proj1 (assign_types_iff _ _ _ V Hus)) in Ty. destruct (at_get _ us h n Hl Hh) as [u Hu].
  destruct (forall2_get _ _ _ _ _ _ _ Ty Hu) as (i & Hi & Ti). destruct (R h i Hi) as (b & nominal & area & H1 & H2 & H3 & H4).
  exists u, i, b, nominal, area. auto 8.
Qed.

Theorem C171_complete : forall t n us, valid_probabilities (t_prob t) -> draws n us ->
  (complete_systems t -> exists y, assign_systems t us = Done y) /\
  (complete_buildings t -> exists s, assign_buildings t us = Done s).
Proof. intros t n us V [_ H]. split; intros C; [apply systems_total|apply buildings_total]; assumption. Qed.

(** Probabilities that are not valid are refused before anything is read or drawn. *)
Theorem C171_refused : forall t us, ~ valid_probabilities (t_prob t) ->
  assign_systems t us = Fail Plain /\ assign_buildings t us = Fail Plain.
Proof. intros t us V. unfold assign_systems, assign_buildings. rewrite (assign_types_invalid _ us V). split; reflexivity. Qed.

Lemma column_missing : forall A (d : list (string * list A)) key types, (forall c, ~ In (key, c) d) -> column d key types = Fail (Named KeyError).
Proof. intros A d key types H. unfold column. destruct (dget String.eqb d key) as [c|] eqn:E; [|reflexivity]. apply dget_in in E. exfalso. apply (H c E). Qed.

(** A dictionary without one of the parameters is never accepted. *)
Ltac walk H := repeat match type of H with
  | obind (column ?d ?k ?ty) _ = _ => rewrite (column_missing _ d k ty) in H by assumption; discriminate H
  | obind ?x _ = _ => destruct x; cbn [obind] in H; [|discriminate H]
  end.
Theorem C171_missing : forall t us,
  (forall key y, In key ["pump_power"; "standby_power"; "fuel_flow_rate"; "flow_rate_to_W"; "heat_output_sh"; "heat_output_dhw"; "cyl_loss"; "cyl_volume"]%string ->
     (forall c, ~ In (key, c) (t_num t)) -> assign_systems t us <> Done y) /\
  (forall y, (forall c, ~ In ("fuel_type"%string, c) (t_txt t)) \/ (forall c, ~ In ("is_combi"%string, c) (t_flag t)) -> assign_systems t us <> Done y) /\
  (forall key s, In key ["emitters_target_temperature"; "emitters_capacitance"; "emitters_transfer_coef"; "ext_capacitance"; "int_capacitance";
     "build_int_transfer_coef"; "out_build_transfer_coef"; "ventilation_transfer_coef"; "floor_area"; "irradiance_multiplier"]%string ->
     (forall c, ~ In (key, c) (t_num t)) -> assign_buildings t us <> Done s).
Proof.
  intros t us. split; [|split].
  - intros key y Hk Hc H. unfold assign_systems in H. repeat (destruct Hk as [<-|Hk]; [walk H|]). destruct Hk.
  - intros y Hc H. unfold assign_systems in H. destruct Hc as [Hc|Hc]; walk H.
  - intros key y Hk Hc H. unfold assign_buildings in H. repeat (destruct Hk as [<-|Hk]; [walk H|]). destruct Hk.
Qed.

(** Checking a concrete dictionary. *)
Definition columns_ok {A} (d : list (string * list A)) (k : nat) (keys : list string) : bool :=
  forallb (fun key => existsb (fun c => String.eqb (fst c) key) d && forallb (fun c => negb (String.eqb (fst c) key) || Nat.eqb (length (snd c)) k) d) keys.
Lemma columns_check : forall A (d : list (string * list A)) k keys, columns_ok d k keys = true -> has_columns d k keys.
Proof.
  intros A d k keys H key Hk. unfold columns_ok in H. rewrite forallb_forall in H. apply H in Hk. apply andb_true_iff in Hk as [H1 H2]. split.
  - apply existsb_exists in H1 as ([k' c] & Hin & E). apply String.eqb_eq in E. cbn in E. subst k'. exists c. exact Hin.
  - intros c Hc. rewrite forallb_forall in H2. apply H2 in Hc. cbn [fst snd] in Hc. rewrite String.eqb_refl in Hc. apply Nat.eqb_eq in Hc. exact Hc.
Qed.
Lemma systems0_complete : complete_systems systems0.
Proof. split; [|split]; apply columns_check; vm_compute; reflexivity. Qed.
Lemma buildings0_complete : complete_buildings buildings0.
Proof. apply columns_check. vm_compute. reflexivity. Qed.

Example C171_example :
  valid_probabilities (t_prob systems0) /\ complete_systems systems0 /\ complete_buildings buildings0 /\
  match assign_systems systems0 [(1 # 10); (8 # 10)] with
  | Done y => y_types y = [0%nat; 1%nat] /\ y_fuel y = ["Mainsgas"; "Electricity"]%string /\ y_combi y = [true; false] /\ y_C_cyl y = [Some 4200; Some 210000]
  | Fail _ => False end /\
  assign_systems (Table [(1 # 2); (1 # 4)] (t_num systems0) (t_txt systems0) (t_flag systems0)) [(1 # 10)] = Fail Plain /\
  assign_systems (Table (t_prob systems0) [] (t_txt systems0) (t_flag systems0)) [(1 # 10)] = Fail (Named KeyError).
Proof.
  split; [|split; [exact systems0_complete|split; [exact buildings0_complete|vm_compute; repeat split; reflexivity]]].
  split; [discriminate|]. split; [|split; reflexivity]. intros [|[|[|]]] x Hx; try discriminate; injection Hx as <-; discriminate.
Qed.

Print Assumptions C171_system.
Print Assumptions C171_building.
Print Assumptions C171_complete.
Print Assumptions C171_refused.
Print Assumptions C171_missing.

Lemma data0_complete : complete_data data0 [(1 # 4); (3 # 4)] [1].
Proof.
  assert (P : forall p, total p == 1 -> nonneg p -> p <> [] -> valid_probabilities p).
  { intros p H1 H2 H3. split; [exact H3|]. split; [exact H2|]. rewrite H1. split; reflexivity. }
  assert (NN : forall p, Forall (fun x => 0 <= x) p -> nonneg p).
  { intros p H i x Hx. rewrite Forall_forall in H. apply H. eapply nth_error_In. exact Hx. }
  split; [apply P; [reflexivity|apply NN; repeat constructor; discriminate|discriminate]|]. split; [exact systems0_complete|].
  split; [|split; [apply P; [reflexivity|apply NN; repeat constructor; discriminate|discriminate]|exact buildings0_complete]].
  unfold thermo_ok. split; [discriminate|]. split; [split; [apply NN; repeat constructor; discriminate|reflexivity]|].
  split; [split; [reflexivity|intros [|[|[|]]] x Hx; try discriminate; injection Hx as <-; reflexivity]|]. split; [reflexivity|].
  split; [discriminate|]. split; [split; [apply NN; repeat constructor; discriminate|reflexivity]|].
  split; [split; [reflexivity|intros [|[|]] x Hx; try discriminate; injection Hx as <-; reflexivity]|]. reflexivity.
Qed.

(** ** C172: law of the equipment *)

(** Systems, buildings, room and water targets of all households of a simulator: the
    product of the shares. *)
Theorem C172_law : forall algo dt outside d n ph pw ss bb hs ws vh vw, complete_data d ph pw -> NoDup (a_home (e_thermo d)) -> NoDup (a_water (e_thermo d)) ->
  length ss = n -> length bb = n -> length hs = n -> length ws = n ->
  Forall2 (fun i v => at_ (a_home (e_thermo d)) i v) hs vh -> Forall2 (fun i v => at_ (a_water (e_thermo d)) i v) ws vw ->
  has_probability (6 * n) (fun us => exists f, five_construct algo dt outside d n us = Done f /\
      y_types (f_system f) = ss /\ b_types (f_stock f) = bb /\ map g_sh (f_targets f) = map Some vh /\ map g_dhw (f_targets f) = map Some vw)
    (product (map (share (t_prob (e_systems d))) ss) * product (map (share (t_prob (e_buildings d))) bb) * product (map (entry ph) hs) * product (map (entry pw) ws)).
Proof. exact equipment_law. Qed.

Theorem C172_binomial : forall algo dt outside d n ph pw i k, complete_data d ph pw ->
  has_probability (6 * n) (fun us => exists f, five_construct algo dt outside d n us = Done f /\ count_occ Nat.eq_dec (y_types (f_system f)) i = k)
    (binomial n k (share (t_prob (e_systems d)) i)) /\
  has_probability (6 * n) (fun us => exists f, five_construct algo dt outside d n us = Done f /\ count_occ Nat.eq_dec (b_types (f_stock f)) i = k)
    (binomial n k (share (t_prob (e_buildings d)) i)).
Proof. exact count_law. Qed.

(** The shares are the stored probabilities; what is missing up to one goes to the
    first type. *)
Theorem C172_shares : forall p i, nonneg p ->
  (total p == 1 -> share p i == entry p i) /\
  (total p <= 1 -> i <> 0%nat -> share p i == entry p i) /\ (total p <= 1 -> share p 0 == entry p 0 + (1 - total p)).
Proof.
  intros p i Hp. split; [|split].
  - intros Ht. rewrite share_below by (assumption || lra). destruct (Nat.eqb i 0); lra.
  - intros Ht Hi. rewrite share_below by assumption. apply Nat.eqb_neq in Hi. rewrite Hi. ring.
  - intros Ht. rewrite share_below by assumption. reflexivity.
Qed.

Theorem C172_zero : forall algo dt outside d n us ph pw f i x, complete_data d ph pw -> draws (6 * n) us ->
  five_construct algo dt outside d n us = Done f -> x == 0 ->
  (at_ (t_prob (e_systems d)) i x -> i <> 0%nat \/ 1 <= total (t_prob (e_systems d)) -> ~ In i (y_types (f_system f))) /\
  (at_ (t_prob (e_buildings d)) i x -> i <> 0%nat \/ 1 <= total (t_prob (e_buildings d)) -> ~ In i (b_types (f_stock f))).
Proof.
  intros algo dt outside d n us ph pw f i x Hd Hus Hf Hx.
  destruct (five_done algo dt outside d n us ph pw Hd Hus) as (f' & y & s & rh & rw & vh & vw & Hf' & Hy & Hs & _ & _ & _ & _ & E).
  rewrite Hf in Hf'. injection Hf' as <-. cbv zeta in E. rewrite E. cbn [f_system f_stock].
  destruct (systems_done _ _ _ Hy) as (Ty & _). destruct (buildings_done _ _ _ Hs) as (Ts & _).
  assert (D0 := proj2 (block_draws n us 0 Hus ltac:(lia))). assert (D3 := proj2 (block_draws n us 3 Hus ltac:(lia))).
  apply (proj1 (assign_types_iff _ _ _ (proj1 Hd) D0)) in Ty. apply (proj1 (assign_types_iff _ _ _ (proj1 (proj2 (proj2 (proj2 Hd)))) D3)) in Ts.
  assert (G : forall p vs gs, Forall (fun u => 0 <= u /\ u < 1) vs -> Forall2 (type_of p) vs gs -> at_ p i x -> i <> 0%nat \/ 1 <= total p -> ~ In i gs).
  { intros p vs gs D F Hp Hc Hi. induction F as [|u g vs gs H F IH]; [destruct Hi|]. inversion D as [|? ? Hu D']; subst. destruct Hi as [<-|Hi]; [|apply IH; assumption].
    exact (type_nonzero p u g x Hp Hx (proj2 Hu) Hc H). }
  split; intros A B; [apply (G _ _ _ D0 Ty A B)|apply (G _ _ _ D3 Ts A B)].
Qed.

Example C172_example :
  share (t_prob systems0) 1 == 1 # 4 /\ share [(999999 # 1000000) - (1 # 2); (1 # 2)] 0 == 1 # 2 /\
  product (map (share (t_prob systems0)) [0%nat; 1%nat]) * product (map (share (t_prob buildings0)) [1%nat; 0%nat]) * product (map (entry [(1 # 4); (3 # 4)]) [1%nat; 1%nat]) * product (map (entry [1]) [0%nat; 0%nat]) == 27 # 1024 /\
  binomial 2 1 (share (t_prob systems0) 1) == 3 # 8.
Proof. repeat split; vm_compute; reflexivity. Qed.

Print Assumptions C172_law.
Print Assumptions C172_binomial.
Print Assumptions C172_shares.
Print Assumptions C172_zero.

(** ** C173: a fresh simulator *)

(** Construction succeeds with one household per household asked for. *)
Theorem C173_total : forall algo dt outside d n us ph pw, complete_data d ph pw -> draws (6 * n) us ->
  exists f, five_construct algo dt outside d n us = Done f /\ f_n f = n /\ length (households f) = n /\
    forall h, (h < n)%nat -> exists x, household f h = Some x /\ at_ (households f) h x.
Proof.
  intros algo dt outside d n us ph pw Hd Hus.
  destruct (five_done algo dt outside d n us ph pw Hd Hus) as (f & y & s & rh & rw & vh & vw & Hf & _ & _ & _ & _ & _ & _ & E).
  exists f. split; [exact Hf|]. cbv zeta in E. split; [rewrite E; reflexivity|].
  destruct (households_fresh algo dt outside d n us ph pw f Hd Hus Hf) as [L A]. split; [exact L|]. intros h Hh.
  destruct (five_household algo dt outside d n us ph pw f h Hd Hus Hf Hh) as (u0&u1&u2&u3&u4&u5&i&j&kh&kw&home&water&nominal&area&p&x&H).
  exists (p, x). split; [tauto|]. apply A; [exact Hh|tauto].
Qed.

(** Household [h]: its equipment is one row of each table, its cylinder is the same in
    building, demand and system, its targets are values of the data. *)
Theorem C173_parts : forall algo dt outside d n us ph pw f h p x, complete_data d ph pw -> draws (6 * n) us ->
  five_construct algo dt outside d n us = Done f -> household f h = Some (p, x) -> (h < n)%nat ->
  exists i j nominal area home water m,
    at_ (y_types (f_system f)) h i /\ system_row (e_systems d) i (p_system p) /\
    at_ (b_types (f_stock f)) h j /\ building_row (e_buildings d) j (p_building p) nominal area /\
    In home (a_home (e_thermo d)) /\ In water (a_water (e_thermo d)) /\
    x_targets x = Targets (Some home) (Some water) (Some (a_setpoint (e_thermo d))) /\
    system_at (f_system f) h = Some m /\ at_ (f_build_cyl f) h (m_cyl m) /\ at_ (f_demand_cyl f) h (m_cyl m) /\ at_ (f_combi f) h (m_combi m) /\
    p_system p = m /\ p_bands p = a_bands (e_thermo d) /\ p_dt p = Some dt /\ x_algo x = algo.
Proof.
  intros algo dt outside d n us ph pw f h p x Hd Hus Hf Hx Hh.
  destruct (five_household algo dt outside d n us ph pw f h Hd Hus Hf Hh) as
    (u0&u1&u2&u3&u4&u5&i&j&kh&kw&home&water&nominal&area&p'&x'&_&_&_&_&_&_&Hx'&_&Hi&Hr&_&Hj&Hb&_&Hh1&_&Hw1&Hc&Hbands&Hdt&Ex).
  rewrite Hx in Hx'. injection Hx' as <- <-.
  destruct (five_done algo dt outside d n us ph pw Hd Hus) as (f' & y & s & rh & rw & vh & vw & Hf' & Hy & _ & _ & _ & _ & _ & E).
  rewrite Hf in Hf'. injection Hf' as <-. cbv zeta in E.
  destruct (systems_done _ _ _ Hy) as (_ & _ & _ & _ & R).
  assert (Hi' : at_ (y_types y) h i) by (rewrite E in Hi; exact Hi). destruct (R h i Hi') as (m & Hm & Mc & Mcyl & _).
  exists i, j, nominal, area, home, water, m. do 4 (split; [assumption|]). split; [eapply nth_error_In; exact Hh1|]. split; [eapply nth_error_In; exact Hw1|].
  split; [rewrite Ex; reflexivity|]. split; [rewrite E; exact Hm|]. split; [rewrite E; exact Mcyl|]. split; [rewrite E; exact Mcyl|]. split; [rewrite E; exact Mc|].
  split; [|split; [exact Hbands|]; split; [exact Hdt|rewrite Ex; reflexivity]].
  clear Hr. revert Hx. rewrite E. unfold household. cbn [f_system f_targets f_stock f_temps f_build_cyl f_combi f_ext_sys f_ext_cyl f_cyl_dhw f_dt f_bands f_algo].
  unfold at_ in Mc, Mcyl. rewrite Hm, Mcyl, Mc.
  repeat (match goal with |- context [match ?o with Some _ => _ | None => _ end] => destruct o end; [|discriminate]). intros [= <- _]. destruct m; reflexivity.
Qed.

(** Temperatures at the start. *)
Theorem C173_temperatures : forall algo dt outside d n us ph pw f h p x o, complete_data d ph pw -> draws (6 * n) us ->
  five_construct algo dt outside d n us = Done f -> household f h = Some (p, x) -> (h < n)%nat -> val outside o ->
  (forall i v, holds (t_num (e_buildings d)) "emitters_target_temperature" i v -> exists q, val v q) ->
  exists v goal nominal, temps_are (x_temps x) v /\ g_sh (x_targets x) = Some goal /\
    goal - 1 <= t_i v /\ t_i v < goal + 1 /\ t_b v - o == goal - t_b v /\ 50 <= t_c v /\ t_c v < 52 /\ t_w v == 10 /\
    (exists j e, at_ (b_types (f_stock f)) h j /\ holds (t_num (e_buildings d)) "emitters_target_temperature" j e /\ val e nominal) /\
    (goal <= t_i v -> t_e v == t_i v) /\ (t_i v < goal -> t_e v == nominal).
Proof.
  intros algo dt outside d n us ph pw f h p x o Hd Hus Hf Hx Hh Ho Hn.
  destruct (five_household algo dt outside d n us ph pw f h Hd Hus Hf Hh) as
    (u0&u1&u2&u3&u4&u5&i&j&kh&kw&home&water&nominal&area&p'&x'&_&_&_&_&D4&D5&Hx'&_&Hi&Hr&_&Hj&Hb&_&Hh1&_&Hw1&Hc&Hbands&Hdt&Ex).
  rewrite Hx in Hx'. injection Hx' as <- <-.
  assert (Hnom : holds (t_num (e_buildings d)) "emitters_target_temperature" j nominal) by apply Hb. destruct (Hn _ _ Hnom) as [q Hq].
  assert (U : forall k u, at_ us k u -> 0 <= u /\ u < 1) by (intros k u Hu; destruct Hus as [_ Hus]; rewrite Forall_forall in Hus; apply Hus; eapply nth_error_In; exact Hu).
  assert (U4 := U _ _ D4). assert (U5 := U _ _ D5).
  destruct (initial_ranges outside (Some home) nominal (Some (2 * u4 - 1)) (Some u5) o home q (2 * u4 - 1) u5) as (v & H1 & H2 & H3 & H4 & H5 & H6 & H7 & H8 & H9);
    try assumption; try (apply val_some; reflexivity); try lra.
  exists v, home, q. rewrite Ex. split; [exact H1|]. split; [reflexivity|]. do 6 (split; [assumption|]).
  split; [exists j, nominal; auto|]. split; assumption.
Qed.

(** Nothing is on and no heat is asked for. *)
Theorem C173_off : forall algo dt outside d n us ph pw f h p x, complete_data d ph pw -> draws (6 * n) us ->
  five_construct algo dt outside d n us = Done f -> household f h = Some (p, x) -> (h < n)%nat ->
  x_therm x = TStates false false false /\ x_controls x = Controls false false false /\ x_ext_sys x = false /\ x_ext_cyl x = false /\
  val (dhw_heat_demand x) 0 /\ val (sh_heat_demand x) 0 /\ val (total_heat_demand x) 0 /\
  o_dhw (x_outputs x) = Some 0 /\ o_sh (x_outputs x) = Some 0.
Proof.
  intros algo dt outside d n us ph pw f h p x Hd Hus Hf Hx Hh.
  destruct (five_household algo dt outside d n us ph pw f h Hd Hus Hf Hh) as
    (u0&u1&u2&u3&u4&u5&i&j&kh&kw&home&water&nominal&area&p'&x'&_&_&_&_&_&_&Hx'&_&_&_&_&_&_&_&_&_&_&_&_&_&Ex).
  rewrite Hx in Hx'. injection Hx' as <- <-. rewrite Ex. clear.
  split; [apply fresh_off|]. split; [apply fresh_off|]. split; [reflexivity|]. split; [reflexivity|].
  destruct (fresh_demands algo (initialize_temperatures outside (Some home) nominal (Some (2 * u4 - 1)) (Some u5)) (Targets (Some home) (Some water) (Some (a_setpoint (e_thermo d))))) as (A & B & C).
  split; [exact A|]. split; [exact B|]. split; [exact C|]. split; reflexivity.
Qed.

Theorem C173_power : forall algo dt outside d n us ph pw f, complete_data d ph pw -> draws (6 * n) us ->
  five_construct algo dt outside d n us = Done f ->
  (forall h i v, at_ (y_types (f_system f)) h i -> holds (t_txt (e_systems d)) "fuel_type" i v -> known_fuel v) ->
  exists v, five_power (households f) = Ok v /\ length v = n /\
    forall h p x w, (h < n)%nat -> household f h = Some (p, x) -> val (m_standby (p_system p)) w -> exists e, at_ v h e /\ val e w.
Proof. exact fresh_power. Qed.

Example C173_example :
  match five_construct "heat_max_emmiters" 60 (Some (-(4))) data0 2 [(1#10); (8#10); (1#2); (1#8); 0; (1#3); (2#3); (1#3); (1#4); (3#4); (1#2); 0] with
  | Done f => map (fun px => (m_fuel (p_system (fst px)), C_b (p_building (fst px)), option_map Qred (T_i (x_temps (snd px))), T_em (x_temps (snd px)))) (households f)
      = [("Mainsgas"%string, Some 9000000, Some (41#2), Some 45); ("Electricity"%string, Some 15647706, Some (37#2), Some ((18 + (2 * (3#4) - 1)))) ] /\
      match five_power (households f) with Ok v => map (option_map Qred) v = [Some 10; Some 5] | Err _ => False end
  | Fail _ => False end.
Proof. vm_compute. split; reflexivity. Qed.

Print Assumptions C173_total.
Print Assumptions C173_parts.
Print Assumptions C173_temperatures.
Print Assumptions C173_off.
Print Assumptions C173_power.

(** ** C174: external heating systems *)

(** The call itself changes no temperature, target, thermostat, control or demand. *)
Theorem C174_call : forall new p x p' x', set_external new (p, x) = (p', x') ->
  x_temps x' = x_temps x /\ x_targets x' = x_targets x /\ x_therm x' = x_therm x /\ x_controls x' = x_controls x /\
  x_demand x' = x_demand x /\ x_outputs x' = x_outputs x /\ x_algo x' = x_algo x /\
  dhw_heat_demand x' = dhw_heat_demand x /\ sh_heat_demand x' = sh_heat_demand x /\ total_heat_demand x' = total_heat_demand x /\
  x_ext_sys x' = true /\ p_building p' = p_building p /\ p_bands p' = p_bands p /\ p_dt p' = p_dt p /\
  m_cyl (p_system p') = m_cyl new /\ m_combi (p_system p') = m_combi new.
Proof. intros new p x p' x' H. injection H as <- <-. repeat split. Qed.

(** From then on the household behaves as one whose own system is the new one, as long
    as the heat for water and rooms is given at each step. *)
Theorem C174_replaced_partial : forall l new p x p' x', Forall all_heat_given l -> set_external new (p, x) = (p', x') ->
  match five_run p' x' l, five_run (HPar (p_dt p) (p_bands p) (p_building p) new) x l with
  | Ok a, Ok b => same_but_total a b
  | Err e, Err e' => e = e'
  | _, _ => False
  end.
Proof.
  intros l new p x p' x' Hl H. injection H as <- <-. 
  destruct l as [|i l]; [cbn; unfold same_but_total; repeat split|].
  pose proof (external_run (i :: l) p x x new Hl ltac:(unfold same_but_total; repeat split)) as R.
  cbn [five_run] in *. exact R.
Qed.

(** No power is reported right after the call, if none was read since the last step,
    and after every step where the heat is given. *)
Theorem C174_no_power_partial : forall new l v s, ask_power (external_system new (l, None)) = Ok (v, s) -> forall e, In e v -> e = Some 0.
Proof.
  intros new l v s H e He. unfold ask_power, external_system in H. cbn [fst snd] in H. destruct (five_power _) as [w|] eqn:E; [|discriminate]. cbn in H. injection H as <- _.
  apply In_nth_error in He as [h Hh]. unfold five_power in E. destruct (system_power _) as [z|] eqn:F; [|discriminate]. cbn in E. injection E as <-.
  rewrite map2_nth in Hh. destruct (nth_error (map2 set_external new l) h) as [[p x]|] eqn:G; [|discriminate]. destruct (nth_error z h); [|discriminate]. injection Hh as <-.
  rewrite map2_nth in G. destruct (nth_error new h) as [m|]; [|discriminate]. destruct (nth_error l h) as [[p0 x0]|]; [|discriminate]. injection G as _ <-. reflexivity.
Qed.

Theorem C174_no_power_later_partial : forall inputs s s1 v s2, Forall all_heat_given inputs -> run_step inputs s = Ok s1 -> ask_power s1 = Ok (v, s2) ->
  forall e, In e v -> e = Some 0.
Proof.
  intros inputs s s1 v s2 Hi H1 H2 e He. unfold run_step in H1. destruct (mapM _ _) as [l|] eqn:M; [|discriminate]. cbn in H1. injection H1 as <-.
  unfold ask_power in H2. cbn [fst snd] in H2. destruct (five_power l) as [w|] eqn:E; [|discriminate]. cbn in H2. injection H2 as <- _.
  apply In_nth_error in He as [h Hh].
  destruct (mapM_ok _ _ _ _ _ M) as [L R].
  assert (Hl : (h < length l)%nat).
  { unfold five_power in E. destruct (system_power _) as [z|]; [|discriminate]. cbn in E. injection E as <-. rewrite map2_nth in Hh.
    destruct (nth_error l h) eqn:G; [|discriminate]. apply nth_error_Some. congruence. }
  rewrite L in Hl. destruct (nth_error (combine (fst s) inputs) h) as [[[p x] i]|] eqn:C; [|apply nth_error_None in C; lia].
  destruct (R h _ C) as ([p' x'] & Hy & Ey). cbn [fst snd] in Ey. destruct (five_step p x i) as [x1|] eqn:F; [|discriminate]. cbn in Ey. injection Ey as <- <-.
  assert (G : all_heat_given i). { rewrite Forall_forall in Hi. apply Hi. apply nth_error_In in C. apply in_combine_r in C. exact C. }
  assert (X : x_ext_sys x1 = true).
  { pose proof (external_step p x x (p_system p) i G ltac:(unfold same_but_total; repeat split)) as P.
    assert (Q : fst (set_external (p_system p) (p, x)) = p) by (destruct p as [? ? ? [? ? ? ? ? ? ? ? ?]]; reflexivity). rewrite Q, F in P.
    destruct (five_step (HPar _ _ _ _) x i); [apply P|destruct P]. }
  assert (Y := external_power l w h p x1 E Hy X). unfold at_ in Y. rewrite Hh in Y. injection Y as <-. reflexivity.
Qed.

(** The full claim fails.  A step without external heat heats with the internal system
    again, on the new system's cylinder, and reports its power. *)
Theorem C174_power_refuted : exists l new i s1 w s2, run_step [i] (external_system new (l, None)) = Ok s1 /\
  i_heat i = NoHeat /\ i_dhw i = None /\ i_sh i = None /\ ask_power s1 = Ok ([Some w], s2) /\ 1000 < w.
Proof.
  exists [(par0, five_init "heat_max_emmiters" (Temps (Some 12) (Some 18) (Some 40) (Some 55) (Some 10)) targets0)],
    [HSystem (Some 0) (Some 0) (Some 0) (Some 0) (Some 0) (Some 0) "Mainsgas" true cylinder0], (HInput (winter 0) None NoHeat None None None).
  do 3 eexists. split; [vm_compute; reflexivity|]. do 3 (split; [reflexivity|]). split; [vm_compute; reflexivity|]. reflexivity.
Qed.

(** A power demand read before the call is still reported after it. *)
Theorem C174_cached_refuted : exists l new w s1 s2, ask_power (l, None) = Ok ([Some w], s1) /\
  ask_power (external_system new s1) = Ok ([Some w], s2) /\ 0 < w.
Proof.
  exists [(HPar (Some 60) bands0 building0 (HSystem (Some 3600) (Some 5925) (Some 20) (Some 5) (Some (3 # 2)) (Some 1500) "Electricity" false cylinder0), start0)], [pump0].
  do 3 eexists. split; [vm_compute; reflexivity|]. split; [vm_compute; reflexivity|]. reflexivity.
Qed.

Example C174_example :
  let new := HSystem (Some 9000) (Some 9000) (Some 0) (Some 0) (Some 0) (Some 0) "Mainsgas" true (cylinder_of (Some 120) (Some 2)) in
  let i := HInput (winter 1) None NoHeat (Some (Some 500)) (Some (Some 700)) None in
  all_heat_given i /\
  let '(p', x') := set_external new (par0, start0) in
  look (five_run p' x' [i; i]) = look (five_run (HPar (Some 60) bands0 building0 new) start0 [i; i]) /\
  look (five_run p' x' [i; i]) <> look (five_run par0 start0 [i; i]).
Proof. split; [exists 500, 700; repeat split|]. vm_compute. split; [reflexivity|discriminate]. Qed.

Print Assumptions C174_call.
Print Assumptions C174_replaced_partial.
Print Assumptions C174_no_power_partial.
Print Assumptions C174_no_power_later_partial.
Print Assumptions C174_power_refuted.
Print Assumptions C174_cached_refuted.

(** ** C175: starting outputs *)

Theorem C175_outputs : forall m k q,
  (* both given: the outputs of a step *)
  system_start m (Some k) (Some q) = (k, system_step m k q, 1%nat) /\
  (* no demand: nothing comes out, the controls are kept *)
  (exists o, system_start m (Some k) None = (k, o, 0%nat) /\ val (o_dhw o) 0 /\ val (o_sh o) 0 /\ val (o_total o) 0) /\
  (* no controls: everything is off *)
  (exists o, system_start m None (Some q) = (Controls false false false, o, 1%nat) /\ val (o_dhw o) 0 /\ val (o_sh o) 0 /\ val (o_total o) 0) /\
  (exists o, system_start m None None = (Controls false false false, o, 0%nat) /\ val (o_dhw o) 0 /\ val (o_sh o) 0 /\ val (o_total o) 0).
Proof.
  intros m k q. split; [reflexivity|]. split; [|split].
  - eexists. split; [reflexivity|]. repeat split; apply val_some; reflexivity.
  - eexists. split; [reflexivity|]. cbn. repeat split; apply val_some; reflexivity.
  - eexists. split; [reflexivity|]. repeat split; apply val_some; reflexivity.
Qed.

(** Without demand the power at the start is that of the pumps: running for space
    heating, standby otherwise. *)
Theorem C175_power : forall m k k0 o steps pump standby sh dhw flow, system_start m k None = (k0, o, steps) -> m_fuel m = "Electricity"%string ->
  val (m_pump m) pump -> val (m_standby m) standby -> val (m_sh m) sh -> val (m_dhw m) dhw -> val (m_flow m) flow -> ~ sh == 0 -> ~ dhw == 0 ->
  exists e, system_power [Heated m k0 o] = Ok [e] /\ val e (if k_sh k0 then pump else standby).
Proof.
  intros m k k0 o steps pump standby sh dhw flow H Hfuel (a & Ea & Qa) (b & Eb & Qb) (c & Ec & Qc) (e & Ee & Qe) (g & Eg & Qg) Hsh Hdhw.
  injection H as <- <- _. set (k0 := match k with Some k => k | None => controls_off end).
  unfold system_power, fuel_consumptions. cbn [fuel_types h_sys filter mapM]. rewrite Hfuel. cbn [String.eqb Ascii.eqb Bool.eqb orb bind].
  cbn [fuel_or_zero dget String.eqb Ascii.eqb Bool.eqb map map2 pumps h_sys h_ctl]. eexists. split; [reflexivity|].
  unfold fuel_of, load_fraction, pump_power, heating_occurs. cbn [h_sys h_out h_ctl o_sh o_dhw]. rewrite Hfuel, Ea, Eb, Ec, Ee, Eg. cbn [String.eqb Ascii.eqb Bool.eqb andb].
  assert (Z1 : Qeq_bool c 0 = false) by (apply not_true_is_false; intros X; apply Qeq_bool_iff in X; apply Hsh; rewrite <- Qc; exact X).
  assert (Z2 : Qeq_bool e 0 = false) by (apply not_true_is_false; intros X; apply Qeq_bool_iff in X; apply Hdhw; rewrite <- Qe; exact X).
  unfold ndiv. rewrite Z1, Z2. unfold nwhere, nadd, nmul, nop.
  assert (N1 : ~ c == 0) by (intros X; apply Hsh; rewrite <- Qc; exact X). assert (N2 : ~ e == 0) by (intros X; apply Hdhw; rewrite <- Qe; exact X).
  destruct (k_sh k0); destruct (k_on k0 && _)%bool; eexists; (split; [reflexivity|]); rewrite <- ?Qa, <- ?Qb; try ring; field; auto.
Qed.

Example C175_example :
  let q := Demand (Some 2000) (Some 9000) in
  system_start pump0 (Some (Controls true true true)) (Some q) = (Controls true true true, Outputs (Some 2000) (Some (3600 - 2000)) (Some (3600 - 2000 + 2000)), 1%nat) /\
  snd (fst (system_start pump0 (Some (Controls true true true)) None)) = Outputs (Some 0) (Some 0) (Some 0) /\
  snd (fst (system_start pump0 None (Some q))) = Outputs (Some 0) (Some 0) (Some (0 + 0)).
Proof. vm_compute. repeat split; reflexivity. Qed.

Print Assumptions C175_outputs.
Print Assumptions C175_power.
