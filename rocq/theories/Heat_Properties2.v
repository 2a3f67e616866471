(** * Properties of new heating simulators and of their readings (C196). *)

From Coq Require Import String List QArith Qfield Bool Lia Lqa.
From Verif Require Import Prelude PreludeFacts SpecBase SpecBaseFacts Sampling_Model Sampling_Spec Sampling_Proofs Heat_Model Heat_Spec Heat_Proofs.
Import ListNotations.

Open Scope Q_scope.

(** ** C196 *)

(** The targets of room and water are the values that the two draws designate
    in their tables, that of the emitters is the nominal temperature. *)
Theorem C196_targets : forall hc hv wc wv sp u1 u2 i j a b, designates hc u1 i -> designates wc u2 j -> at_ hv i a -> at_ wv j b ->
  initialize_targets hc hv wc wv sp u1 u2 = Ok (Targets (Some a) (Some b) (Some sp)).
Proof.
  intros hc hv wc wv sp u1 u2 i j a b D1 D2 A1 A2.
  assert (M : forall c u k, designates c u k -> mc_one c u = Ok k).
  { intros c u k D. apply mc_one_iff; [|left; exact D]. destruct D as (x & H & _). intro E. subst c. destruct k; discriminate. }
  unfold initialize_targets, pick. rewrite (M _ _ _ D1), (M _ _ _ D2). cbn [bind]. unfold at_ in *. rewrite A1. cbn [bind]. rewrite A2. reflexivity.
Qed.

(** A table with fewer values than the state drawn is refused. *)
Theorem C196_short_table : forall hc hv wc wv sp u1 u2 i, designates hc u1 i -> (length hv <= i)%nat ->
  initialize_targets hc hv wc wv sp u1 u2 = Err IndexError.
Proof.
  intros hc hv wc wv sp u1 u2 i D L.
  assert (M : mc_one hc u1 = Ok i).
  { apply mc_one_iff; [|left; exact D]. destruct D as (x & H & _). intro E. subst hc. destruct i; discriminate. }
  unfold initialize_targets, pick. rewrite M. cbn [bind]. apply nth_error_None in L. rewrite L. reflexivity.
Qed.

(** Before the first step nothing is heated and no heat is demanded. *)
Theorem C196_new : forall algo t g gw gr ge, val (g_dhw g) gw -> val (g_sh g) gr -> val (g_em g) ge ->
  let x := five_init algo t g in
  x_temps x = t /\ x_targets x = g /\
  val (dhw_heat_demand x) 0 /\ val (sh_heat_demand x) 0 /\ val (total_heat_demand x) 0 /\
  val (q_dhw (x_demand x)) 0 /\ val (q_sh (x_demand x)) 0 /\
  val (o_dhw (x_outputs x)) 0 /\ val (o_sh (x_outputs x)) 0 /\ val (o_total (x_outputs x)) 0 /\
  x_controls x = Controls false false false /\ x_therm x = TStates false false false /\ x_ext_sys x = false /\ x_ext_cyl x = false.
Proof.
  intros algo t g gw gr ge G1 G2 G3 x. subst x. unfold dhw_heat_demand, sh_heat_demand, total_heat_demand, five_init, thermostats_init.
  cbn [x_temps x_targets x_demand x_outputs x_controls x_therm x_ext_sys x_ext_cyl q_dhw q_sh o_dhw o_sh o_total k_hw k_sh k_on].
  assert (I : forall a r, val a r -> nlt a a = false). { intros a r H. apply not_true_iff_false. intro E. apply (nlt_val _ _ _ _ H H) in E. lra. }
  rewrite (I _ _ G1), (I _ _ G2), (I _ _ G3).
  repeat split; unfold dhw_heat_demand; cbn; apply val_some; reflexivity.
Qed.

(** New simulators draw the standby power of their heating systems. *)
Theorem C196_new_power : forall l, (forall p x, In (p, x) l -> exists algo t g w, x = five_init algo t g /\ val (m_standby (p_system p)) w /\
    (m_fuel (p_system p) = "Mainsgas" \/ m_fuel (p_system p) = "Electricity")%string) ->
  exists v, five_power l = Ok v /\ length v = length l /\
    forall k p x w, at_ l k (p, x) -> val (m_standby (p_system p)) w -> exists e, at_ v k e /\ val e w.
Proof.
  intros l H. unfold five_power. set (hs := map _ l).
  assert (K : known_fuels hs).
  { intros h Hh. unfold hs in Hh. apply in_map_iff in Hh. destruct Hh as ([p x] & <- & I). destruct (H p x I) as (_ & _ & _ & _ & _ & _ & F). cbn [h_sys fst snd]. exact F. }
  apply fuel_total in K. destruct K as [d K]. destruct (system_power hs) as [v|] eqn:E; [|unfold system_power in E; rewrite K in E; discriminate].
  cbn [bind]. pose proof (system_power_eq _ _ E) as ->. eexists. split; [reflexivity|].
  split. { unfold hs. clear. induction l as [|a l IH]; [reflexivity|]. cbn. f_equal. exact IH. }
  intros k p x w Hk Hw. assert (I : In (p, x) l) by (eapply nth_error_In; exact Hk). destruct (H p x I) as (algo & t & g & _ & -> & _ & _).
  exists (nadd (m_standby (p_system p)) (Some 0)). split.
  - unfold hs. clear - Hk. revert k Hk. induction l as [|[p' x'] l IH]; intros [|k] Hk; try discriminate.
    + injection Hk as -> ->. cbn [map map2 at_ nth_error fst snd x_ext_sys five_init nwhere]. unfold at_. cbn [nth_error]. f_equal. f_equal.
      unfold fuel_of, heating_occurs. cbn [h_ctl h_sys five_init x_controls controls_off k_on andb]. rewrite andb_false_r. reflexivity.
    + cbn [map map2]. exact (IH k Hk).
  - apply (val_eq _ (w + 0)); [apply val_add; [exact Hw|apply val_some; reflexivity]|ring].
Qed.

(** A temperature that is not a number switches off its thermostat. *)
Theorem C196_nan : forall d g s t g' s', thermostats_step d g s t None = Ok (g', s') ->
  (nan (T_cyl t) -> s_hw s' = false) /\ (nan (T_i t) -> s_sh s' = false) /\ (nan (T_em t) -> s_em s' = false).
Proof.
  intros d g s t g' s' H. unfold thermostats_step in H. cbn [bind] in H. injection H as <- <-. cbn [s_hw s_sh s_em].
  unfold nan, thermostat. repeat split; intro E; rewrite E; unfold nlt, nle; rewrite !andb_false_r; reflexivity.
Qed.

(** A heater without any rating uses no fuel; one without rating for the space
    but with one for the water, when on, has an undefined consumption. *)
Theorem C196_no_rating : forall h f ms mw, val (m_sh (h_sys h)) ms -> val (m_dhw (h_sys h)) mw ->
  (ms <= 0 -> mw <= 0 -> val (fuel_of f h) 0) /\
  (ms == 0 -> 0 < mw -> k_on (h_ctl h) = true -> m_fuel (h_sys h) = f -> nan (fuel_of f h)).
Proof.
  intros h f ms mw H1 H2. assert (Z : val (Some 0) 0) by (apply val_some; reflexivity). unfold fuel_of, heating_occurs. split.
  - intros L1 L2. assert (N1 : nlt (Some 0) (m_sh (h_sys h)) = false). { apply not_true_iff_false. intro E. apply (nlt_val _ _ _ _ Z H1) in E. lra. }
    assert (N2 : nlt (Some 0) (m_dhw (h_sys h)) = false). { apply not_true_iff_false. intro E. apply (nlt_val _ _ _ _ Z H2) in E. lra. }
    rewrite N1, N2. cbn [orb]. rewrite !andb_false_r. exact Z.
  - intros E P On F. assert (P2 : nlt (Some 0) (m_dhw (h_sys h)) = true) by (apply (nlt_val _ _ _ _ Z H2); exact P).
    rewrite P2, On, F, String.eqb_refl, orb_true_r. cbn [andb nwhere]. unfold load_fraction, nan.
    destruct H1 as (v & -> & Ev). assert (Q0 : Qeq_bool v 0 = true) by (apply Qeq_bool_iff; lra).
    unfold ndiv at 1. rewrite Q0. destruct (o_sh (h_out h)); cbn; unfold nmul, nop; destruct (m_flow (h_sys h)); destruct (String.eqb f "Mainsgas"); reflexivity.
Qed.

(** External heat under another name than the three in use is refused. *)
Theorem C196_unknown_output : forall p x i d k v t, i_target i = None \/ i_target i = Some (TArray t) ->
  x_algo x = "heat_max_emmiters"%string \/ x_algo x = "room_estimation"%string ->
  i_heat i = HeatDict d -> i_dhw i = None -> i_sh i = None -> In (k, v) d -> ~ In k ["dhw"; "space_heating"; "total"]%string ->
  five_step p x i = Err KeyError.
Proof.
  intros p x i d k v t T A Hd H1 H2 I N. unfold five_step. rewrite Hd, H1, H2. cbn [external_outputs].
  assert (G : exists g s, thermostats_step (p_bands p) (x_targets x) (x_therm x)
     {| T_b := T_b (x_temps x); T_i := T_i (x_temps x); T_em := T_em (x_temps x); T_cyl := assign_external (T_cyl (x_temps x)) (i_cyl i); T_cold := T_cold (x_temps x) |} (i_target i) = Ok (g, s)).
  { unfold thermostats_step. destruct T as [-> | ->]; cbn [bind set_new_target]; eauto. }
  destruct G as (g & s & ->). cbn [bind]. unfold demand_step.
  assert (Q : forall o, exists q algo, demand_space (x_algo x) demand_dt (p_bands p) (p_building p) o g (Some (w_out (i_gains i))) = Ok (q, algo)).
  { intro o. unfold demand_space. destruct A as [-> | ->]; cbn; eauto. }
  match goal with |- context [demand_space _ _ _ _ ?o _ _] => destruct (Q o) as (q & algo & ->) end. cbn [bind].
  match goal with |- context [set_outputs ?o d] => assert (S : set_outputs o d = Err KeyError) end.
  { match goal with |- set_outputs ?o d = _ => generalize o end. clear - I N.
    assert (E : forall o kv, (exists o', set_output o kv = Ok o') \/ set_output o kv = Err KeyError).
    { intros o kv. unfold set_output. destruct (String.eqb _ _); [eauto|]. destruct (String.eqb _ _); [eauto|]. destruct (String.eqb _ _); eauto. }
    induction d as [|kv d IH]; intro o; [destruct I|]. cbn [set_outputs]. destruct I as [->|I].
    - unfold set_output. cbn [fst]. cbn [In] in N.
      destruct (String.eqb_spec k "dhw"); [intuition congruence|]. destruct (String.eqb_spec k "space_heating"); [intuition congruence|].
      destruct (String.eqb_spec k "total"); [intuition congruence|]. reflexivity.
    - destruct (E o kv) as [[o' ->] | ->]; [|reflexivity]. cbn [bind]. exact (IH I o'). }
  rewrite S. reflexivity.
Qed.

Example C196_example :
  initialize_targets [1 # 2; 1] [18; 21] [1 # 4; 1] [50; 55] 45 (3 # 4) (1 # 8) = Ok (Targets (Some 21) (Some 50) (Some 45)) /\
  initialize_targets [1 # 2; 1] [18] [1 # 4; 1] [50; 55] 45 (3 # 4) (1 # 8) = Err IndexError /\
  set_outputs (Outputs (Some 0) (Some 0) (Some 0)) [("floor"%string, Some 5)] = Err KeyError.
Proof. conj_vm. Qed.

Print Assumptions C196_targets.
Print Assumptions C196_short_table.
Print Assumptions C196_new.
Print Assumptions C196_new_power.
Print Assumptions C196_nan.
Print Assumptions C196_no_rating.
Print Assumptions C196_unknown_output.
