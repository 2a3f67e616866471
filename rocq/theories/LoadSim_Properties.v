(** * C59, C100, C101: the load simulator. *)

From Coq Require Import String List ZArith QArith Bool Arith Lia Lqa.
From Verif Require Import Prelude SpecBase SpecBaseFacts Base_Model Base_Spec Base_Proofs Sampling_Model Sampling_Proofs LoadSim_Model LoadSim_Spec LoadSim_Proofs.
Import ListNotations.
Local Open Scope nat_scope.

(** ** C59 *)

(** Whatever the client did before (steps, getter calls, in any order), the power
    demand has one entry per household, each the sum of the present demands of
    appliances, lights and heating (zero when not included). *)
Theorem C59_power_is_sum : forall Cl Ac Ap Li He X (P : parts Cl Ac Ap Li He X) M apn lin hen,
  sized P M apn lin hen ->
  forall n pdf ih ic t0 none lg x ops outs y,
  make_load P M n pdf ih ic t0 none lg = Ok x ->
  match lg with Some l => well_formed l | None => True end ->
  load_exec P ops x = Ok (outs, y) ->
  exists l z, call (load_raw P) load_cached y "get_power_demand"%string = Ok (VS (SArr l), z) /\
    st z = st y /\ ctr z = ctr y /\
    n = Some (Z.of_nat (length l)) /\
    (heating (st y) = None <-> ih = false) /\
    is_sum3 (ap_power P (appliances (st y))) (li_power P (light (st y)))
      (match heating (st y) with Some h => he_power P h | None => repeat 0%Q (length l) end) l.
Proof. intros Cl Ac Ap Li He X P M apn lin hen Z. exact (total_power _ _ _ _ _ _ P M apn lin hen Z). Qed.
Print Assumptions C59_power_is_sum.

(** What each simulator receives and how often it advances: the climate every
    step, the activities in steps 0, 10, 20, ...; appliances and lights get the
    occupancy of the activities; the heating the gains of the same step. *)
Theorem C59_trajectory : forall Cl Ac Ap Li He X (P : parts Cl Ac Ap Li He X) M n pdf ih ic t0 none lg x ops outs y,
  make_load P M n pdf ih ic t0 none lg = Ok x ->
  match lg with Some l => well_formed l | None => True end ->
  load_exec P ops x = Ok (outs, y) ->
  ctr y = length (step_args ops) /\ trajectory Cl Ac Ap Li He X P (step_args ops) (st x) (st y).
Proof. exact load_trajectory. Qed.
Print Assumptions C59_trajectory.

(** The ten-minute activities run ahead: after [k] one-minute steps they have
    advanced by at least [k] and less than [k + 10] minutes; they agree with the
    clock only every tenth step. *)
Theorem C59_activities_ahead : forall Cl Ac Ap Li He X (P : parts Cl Ac Ap Li He X) M n pdf ih ic t0 none lg x ops outs y,
  make_load P M n pdf ih ic t0 none lg = Ok x ->
  match lg with Some l => well_formed l | None => True end ->
  load_exec P ops x = Ok (outs, y) ->
  exists m, after (ac_step P) m (activity (st x)) (activity (st y)) /\
    ctr y <= 10 * m < ctr y + 10 /\ (10 * m = ctr y <-> exists q, ctr y = 10 * q).
Proof.
  intros Cl Ac Ap Li He X P M n pdf ih ic t0 none lg x ops outs y H W E.
  destruct (C59_trajectory _ _ _ _ _ _ P M n pdf ih ic t0 none lg x ops outs y H W E) as (C & aps & lis & hes & _ & _ & _ & _ & _ & A & _).
  exists ((ctr y + 9) / 10). rewrite C. split; [exact A|].
  pose proof (Nat.div_mod_eq (length (step_args ops) + 9) 10). pose proof (Nat.mod_upper_bound (length (step_args ops) + 9) 10).
  split; [lia|]. split; [intro Q; eexists; symmetry; exact Q|]. intros [q Hq]. lia.
Qed.
Print Assumptions C59_activities_ahead.

(** The other getters show the heating simulator's present values; without heating
    they raise AttributeError. *)
Theorem C59_heat_getters : forall Cl Ac Ap Li He X (P : parts Cl Ac Ap Li He X) M n pdf ih ic t0 none lg x ops outs y,
  make_load P M n pdf ih ic t0 none lg = Ok x ->
  match lg with Some l => well_formed l | None => True end ->
  load_exec P ops x = Ok (outs, y) ->
  forall name get, In (name, get) [("get_total_heat_demand", fun h => VS (SArr (he_total P h)));
                                   ("get_dhw_heat_demand", fun h => VS (SArr (he_dhw P h)));
                                   ("get_sh_heat_demand", fun h => VS (SArr (he_sh P h)));
                                   ("get_temperatures", fun h => VD (he_temperatures P h))]%string ->
  match heating (st y) with
  | Some h => exists z, call (load_raw P) load_cached y name = Ok (get h, z) /\ st z = st y
  | None => call (load_raw P) load_cached y name = Err AttributeError
  end.
Proof.
  intros Cl Ac Ap Li He X P M n pdf ih ic t0 none lg x ops outs y H W E name get Hin.
  destruct (make_inv _ _ _ _ _ _ P M _ _ _ _ _ _ _ _ H W) as (k & counts & ac & ap & li & _ & _ & _ & _ & _ & _ & _ & _ & _ & _ & _ & _ & C0 & F).
  destruct (exec_fine _ _ _ _ _ _ (fun _ _ _ => eq_refl) _ _ _ _ F E) as [[Fy _] _].
  assert (RAW : load_raw P (st y) (ctr y) name = match heating (st y) with Some h => Ok (get h) | None => Err AttributeError end).
  { cbn [In] in Hin. destruct Hin as [Hi|[Hi|[Hi|[Hi|[]]]]]; injection Hi as <- <-; unfold load_raw; cbn [String.eqb Ascii.eqb Bool.eqb]; destruct (heating (st y)); reflexivity. }
  unfold call. destruct (load_cached name).
  - destruct (dget String.eqb (cache y) name) as [v|] eqn:G.
    + pose proof (Fy _ _ G) as V. rewrite RAW in V. destruct (heating (st y)); [|discriminate]. injection V as <-. exists y. auto.
    + rewrite RAW. destruct (heating (st y)); [|reflexivity]. cbn [bind]. eexists. split; reflexivity.
  - rewrite RAW. destruct (heating (st y)); [|reflexivity]. cbn [bind]. eexists. split; reflexivity.
Qed.
Print Assumptions C59_heat_getters.

(** Small simulators for the examples: the activities count their steps, the
    appliances add up the occupancy they get, the lights keep occupancy and
    irradiance, the heating keeps its last input. *)
Definition ex_parts : parts Q nat (list Q) (list Q * Q) (heat_in nat) nat :=
  mkParts (fun c => Ok (c + 1)%Q) (fun c => c) (fun c => (100 * c)%Q)
    (fun a => Ok (S a)) (fun a => [inject_Z (Z.of_nat a); 1]%Q) (fun a => [50; inject_Z (Z.of_nat a)]%Q)
    (fun occ s => Ok (map2 Qplus s occ)) (fun s => s) (fun s => s) (fun s => s)
    (fun i _ => Ok i) (fun s => map (Qplus (snd s)) (fst s)) (fun s => fst s)
    (fun i _ => Ok i) (fun h => map2 Qplus (dhw_heating_demand h) (occupancy_gains h)) (fun h => [outside_temperature h; heat_irradiance h])
    (fun h => dhw_heating_demand h) (fun h => lighting_gains h) (fun h => []).

Definition ex_makers : makers Q nat (list Q) (list Q * Q) (heat_in nat) :=
  mkMakers (fun _ => Err NotImplementedError) (fun n => Ok 0) (fun counts _ => Ok (repeat 0%Q (sum_nat counts)))
    (Ok 5%Q) (Err NotImplementedError) (fun n => Ok (repeat 0%Q n, 0%Q))
    (fun n t => Ok (mkHeatIn t 0 (repeat 0%Q n) (repeat 0%Q n) (repeat 0%Q n) (repeat 0%Q n) 0)).

Definition ex_none : load_args nat := mkArgs None None 0.

(** Twelve steps: the activities have made two; reading in between changes nothing. *)
Example C59_example :
  bind (make_load ex_parts ex_makers (Some 2%Z) [1#2; 1#2]%Q true true 0 0 None) (fun x =>
  bind (load_exec ex_parts (OGet _ "get_power_demand"%string None :: repeat (OStep ex_none) 11 ++ [OGet _ "get_power_demand"%string None; OStep ex_none]) x) (fun ox =>
  bind (call (load_raw ex_parts) load_cached (snd ox) "get_power_demand"%string) (fun vz =>
  Ok (ctr (snd ox), activity (st (snd ox)), appliances (st (snd ox)), light (st (snd ox)), heating (st (snd ox)), fst vz))))
  = Ok (12, 2, [14; 12]%Q, ([2; 1]%Q, 1700%Q), Some (mkHeatIn 17 1700 [14; 12] [50; 2] [2; 1] [14; 12] 0%nat)%Q,
        VS (SArr [14 + (1700 + 2) + (14 + 50); 12 + (1700 + 1) + (12 + 2)]%Q)).
Proof. vm_compute. reflexivity. Qed.

(** ** C100: external weather *)

(** Without climate simulator every step needs both external values: otherwise it
    raises ValueError before any of the simulators is stepped (whatever they
    would do). *)
Theorem C100_missing_weather_refused : forall Cl Ac Ap Li He X (P : parts Cl Ac Ap Li He X) a x,
  climate (st x) = None ->
  (external_temperature a = None \/ external_irradiance a = None) ->
  step (load_pre P) (@no_post _ _) (load_raw P) load_cached a x = Err ValueError.
Proof.
  intros Cl Ac Ap Li He X P a x C M. unfold step, load_pre. rewrite C. cbn [climate_moves bind]. unfold weather.
  destruct (external_temperature a), (external_irradiance a); destruct M; try discriminate; reflexivity.
Qed.
Print Assumptions C100_missing_weather_refused.

(** With both values given the climate simulator has no influence: the other
    simulators do the same as in a simulator without climate. *)
Theorem C100_external_weather_wins : forall Cl Ac Ap Li He X (P : parts Cl Ac Ap Li He X) t i e c s k k',
  climate s = Some k -> cl_step P k = Ok k' ->
  let s0 := mkLoad (n_hh s) None (activity s) (appliances s) (light s) (heating s) in
  match load_pre P (mkArgs (Some t) (Some i) e) c s, load_pre P (mkArgs (Some t) (Some i) e) c s0 with
  | Ok r, Ok r0 => climate r = Some k' /\ climate r0 = None /\ activity r = activity r0 /\
                   appliances r = appliances r0 /\ light r = light r0 /\ heating r = heating r0
  | Err x, Err x0 => x = x0
  | _, _ => False
  end.
Proof.
  intros Cl Ac Ap Li He X P t i e c s k k' Hk Hs s0. unfold load_pre, s0.
  rewrite Hk. cbn [climate_moves climate activity appliances light heating n_hh]. rewrite Hs. cbn [bind weather external_temperature external_irradiance external_heat fst snd].
  destruct (if c mod 10 =? 0 then ac_step P (activity s) else Ok (activity s)) as [ac|]; cbn [bind]; [|reflexivity].
  destruct (ap_step P (ac_occupancy P ac) (appliances s)) as [ap|]; cbn [bind]; [|reflexivity].
  destruct (li_step P (ac_occupancy P ac, i) (light s)) as [li|]; cbn [bind]; [|reflexivity].
  destruct (match heating s with Some h => _ | None => Ok None end) as [he|]; cbn [bind]; [|reflexivity].
  cbn. auto 7.
Qed.
Print Assumptions C100_external_weather_wins.

(** A single external value replaces only itself. *)
Theorem C100_partial_override : forall Cl Ac Ap Li He X (P : parts Cl Ac Ap Li He X) ti ir e c s k s',
  climate s = Some k ->
  load_pre P (mkArgs ti ir e) c s = Ok s' ->
  exists k', cl_step P k = Ok k' /\ climate s' = Some k' /\
    load_pre P (mkArgs (Some (match ti with Some t => t | None => cl_temperature P k' end))
                       (Some (match ir with Some i => i | None => cl_irradiance P k' end)) e) c s = Ok s'.
Proof.
  intros Cl Ac Ap Li He X P ti ir e c s k s' Hk H.
  destruct (pre_inv _ _ _ _ _ _ P _ _ _ _ H) as (t & i & E1 & _). rewrite Hk in E1. cbn in E1.
  apply bind_ok in E1. destruct E1 as (k' & E & E1). injection E1 as E1. exists k'. split; [exact E|]. split; [congruence|].
  rewrite <- H. unfold load_pre. rewrite Hk. cbn [climate_moves]. rewrite E. reflexivity.
Qed.
Print Assumptions C100_partial_override.

(** A simulator with climate (or with all external values) never stops as long as
    its simulators do not. *)
Theorem C100_runs : forall Cl Ac Ap Li He X (P : parts Cl Ac Ap Li He X),
  (forall k, is_ok (cl_step P k) = true) -> (forall s, is_ok (ac_step P s) = true) ->
  (forall i s, is_ok (ap_step P i s) = true) -> (forall i s, is_ok (li_step P i s) = true) ->
  (forall i s, is_ok (he_step P i s) = true) ->
  forall args x, lg x = None ->
  (climate (st x) <> None \/ forall a, In a args -> external_temperature a <> None /\ external_irradiance a <> None) ->
  exists y, load_run P args x = Ok y.
Proof.
  intros Cl Ac Ap Li He X P H1 H2 H3 H4 H5.
  assert (D : forall T (r : result T), is_ok r = true -> exists v, r = Ok v) by (intros T [v|]; [eauto|discriminate]).
  induction args as [|a args IH]; intros x L W; [exists x; reflexivity|].
  assert (S : exists s', load_pre P a (ctr x) (st x) = Ok s' /\ (climate s' = None <-> climate (st x) = None)).
  { unfold load_pre.
    assert (C : exists cl t, climate_moves P (climate (st x)) = Ok cl /\ weather P a cl = Ok t /\ (cl = None <-> climate (st x) = None)).
    { destruct (climate (st x)) as [k|] eqn:K; cbn [climate_moves].
      - destruct (D _ _ (H1 k)) as (k' & ->). cbn [bind]. do 2 eexists. split; [reflexivity|]. split; [reflexivity|]. split; discriminate.
      - destruct W as [W|W]; [congruence|]. destruct (W a (or_introl eq_refl)) as [W1 W2].
        unfold weather. destruct (external_temperature a); [|congruence]. destruct (external_irradiance a); [|congruence].
        do 2 eexists. split; [reflexivity|]. split; [reflexivity|tauto]. }
    destruct C as (cl & ti & C1 & C2 & C). rewrite C1. cbn [bind]. rewrite C2. cbn [bind].
    assert (A : exists ac, (if ctr x mod 10 =? 0 then ac_step P (activity (st x)) else Ok (activity (st x))) = Ok ac).
    { destruct (ctr x mod 10 =? 0); [apply D, H2|eauto]. }
    destruct A as (ac & ->). cbn [bind].
    destruct (D _ _ (H3 (ac_occupancy P ac) (appliances (st x)))) as (ap & ->). cbn [bind].
    destruct (D _ _ (H4 (ac_occupancy P ac, snd ti) (light (st x)))) as (li & ->). cbn [bind].
    destruct (heating (st x)) as [h|].
    - destruct (D _ _ (H5 (mkHeatIn (fst ti) (snd ti) (ap_dhw P ap) (ac_gains P ac) (li_gains P li) (ap_gains P ap) (external_heat a)) h)) as (h' & ->).
      cbn [bind]. eexists. split; [reflexivity|exact C].
    - cbn [bind]. eexists. split; [reflexivity|exact C]. }
  destruct S as (s' & S & C). unfold load_run in *. cbn [run]. unfold step. rewrite S. cbn [bind]. unfold visit. cbn [lg]. rewrite L. cbn [bind no_post st ctr cache lg].
  apply IH; [reflexivity|]. cbn [st]. destruct W as [W|W]; [left; intro E; apply W, C, E|right; intros b B; apply W; right; exact B].
Qed.
Print Assumptions C100_runs.

Example C100_example :
  bind (make_load ex_parts ex_makers (Some 2%Z) [1#2; 1#2]%Q true false 3 0 None) (fun x =>
  Ok (option_map (@outside_temperature nat) (heating (st x)),
      is_ok (load_run ex_parts [ex_none] x),
      bind (load_run ex_parts [mkArgs (Some 7%Q) (Some 20%Q) 0; mkArgs (Some 8%Q) (Some 30%Q) 1] x) (fun y =>
      Ok (option_map (fun h => (outside_temperature h, heat_irradiance h, heat_external h)) (heating (st y))))))
  = Ok (Some 3%Q, false, Ok (Some (8%Q, 30%Q, 1))).
Proof. vm_compute. reflexivity. Qed.

(** ** C101: construction *)

(** A constructed simulator has as many households in every part as asked for;
    the activity simulator is the first class that supports the data, and the
    heating starts at the climate's temperature. *)
Theorem C101_construction : forall Cl Ac Ap Li He X (P : parts Cl Ac Ap Li He X) M n pdf ih ic t0 none lg x,
  make_load P M n pdf ih ic t0 none lg = Ok x ->
  match lg with Some l => well_formed l | None => True end ->
  exists k counts, n = Some (Z.of_nat k) /\ 0 < k /\ total_nat counts = k /\
    (mk_activity1 M counts = Ok (activity (st x)) \/
     mk_activity1 M counts = Err NotImplementedError /\ mk_activity2 M k = Ok (activity (st x))) /\
    mk_appliances M counts (ac_occupancy P (activity (st x))) = Ok (appliances (st x)) /\
    mk_light M k = Ok (light (st x)) /\
    (if ic then exists c, climate (st x) = Some c /\ (mk_climate1 M = Ok c \/ mk_climate1 M = Err NotImplementedError /\ mk_climate2 M = Ok c)
     else climate (st x) = None) /\
    (if ih then exists h, heating (st x) = Some h /\
                mk_heating M k (match climate (st x) with Some c => cl_temperature P c | None => t0 end) = Ok h
     else heating (st x) = None) /\
    ctr x = 0.
Proof.
  intros Cl Ac Ap Li He X P M n pdf ih ic t0 none lg x H W.
  destruct (make_inv _ _ _ _ _ _ P M _ _ _ _ _ _ _ _ H W) as (k & counts & ac & ap & li & -> & K & S & I1 & I2 & I3 & N & A1 & A2 & A3 & CC & HH & C0 & F).
  exists k, counts. pose proof (counts_total _ _ _ S) as T. rewrite T in I1. apply instantiate_ok in I1.
  rewrite A1, A2, A3. repeat (split; [first [reflexivity|assumption]|]). split; [|split; assumption].
  destruct ic; [|exact CC]. destruct CC as (c & CC & E). apply instantiate_ok in CC. exists c. auto.
Qed.
Print Assumptions C101_construction.

(** Which errors of the two classes are reported: any error of the first class
    other than NotImplementedError stops the construction. *)
Theorem C101_fallback : forall T (a b : result T) r, instantiate a b = r <->
  match r with
  | Ok x => a = Ok x \/ (a = Err NotImplementedError /\ b = Ok x)
  | Err e => (a = Err e /\ e <> NotImplementedError) \/ (a = Err NotImplementedError /\ b = Err e)
  end.
Proof. intros T a b [x|e]; [apply instantiate_ok|apply instantiate_err]. Qed.
Print Assumptions C101_fallback.

(** A population whose shares do not sum to one is refused. *)
Theorem C101_bad_population : forall Cl Ac Ap Li He X (P : parts Cl Ac Ap Li He X) M z pdf ih ic t0 none lg,
  (0 < z)%Z -> (total pdf <= 1 - (1#1000000) \/ 1 + (1#1000000) <= total pdf)%Q ->
  make_load P M (Some z) pdf ih ic t0 none lg = Err ValueError.
Proof.
  intros Cl Ac Ap Li He X P M z pdf ih ic t0 none lg Hz B. unfold make_load, simulator_check.
  destruct (Z.leb_spec z 0); [lia|]. cbn [bind]. unfold sample_population, check_valid_cdf. cbn [existsb forallb is_nil].
  destruct (is_nil (cumsum pdf)); [reflexivity|]. cbn [orb].
  assert (N : near_one eps_cdf (last (cumsum pdf) 0%Q) = false).
  { apply near_one_false. rewrite last_cumsum. unfold eps_cdf. intros [? ?]. lra. }
  rewrite N. reflexivity.
Qed.
Print Assumptions C101_bad_population.

Example C101_example :
  bind (make_load ex_parts ex_makers (Some 5%Z) [1#5; 4#5]%Q true true 3 0 None) (fun x =>
  Ok (n_hh (st x), appliances (st x), option_map (@outside_temperature nat) (heating (st x)))) =
    Ok (5, repeat 0%Q 5, Some 5%Q) /\
  make_load ex_parts ex_makers (Some 5%Z) [1#5; 3#5]%Q true true 3 0 None = Err ValueError /\
  instantiate (Err KeyError) (Ok 1) = Err KeyError.
Proof. conj_vm. Qed.
