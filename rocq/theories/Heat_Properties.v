(** * Properties of the heating simulators (C45-C49, C75-C79, C108, C109). *)

From Coq Require Import String List QArith Qfield Bool Lia Lqa.
From Verif Require Import Prelude PreludeFacts SpecBase SpecBaseFacts Heat_Model Heat_Spec Heat_Proofs.
Import ListNotations.

Open Scope Q_scope.

(** A semi-detached house with a heat pump and a cylinder of 50 litres (the
    default data, rounded), one step per minute. *)
Definition house0 := House 15647706 530743 176511 210000 216 301 10 100 (1 # 2) 5.
Definition building0 := Building (Some 15647706) (Some 530743) (Some 176511) (Some 216) (Some 301) (Some 10) (Some 100) (Some 5).
Definition cylinder0 := cylinder_of (Some 50) (Some (1 # 2)).
Definition pump0 := HSystem (Some 3600) (Some 5925) (Some 20) (Some 0) (Some (3 # 2)) (Some 1500) "Electricity" false cylinder0.
Definition bands0 := Bands (Some 1) (Some 5) (Some 5).
Definition targets0 := Targets (Some 20) (Some 50) (Some 50).
Definition temps0 := Temps (Some 12) (Some 19) (Some 40) (Some 45) (Some 10).
Definition winter (draw : Q) := Gains (Some 0) (Some 100) (Some draw) (Some 150) (Some 50) (Some 200).
Definition par0 := HPar (Some 60) bands0 building0 pump0.
Definition start0 := five_init "heat_max_emmiters" temps0 targets0.
Definition look (r : result hstate) : list (option Q) :=
  match r with
  | Ok x => map (option_map Qred) [T_b (x_temps x); T_i (x_temps x); T_em (x_temps x); T_cyl (x_temps x); o_dhw (x_outputs x); o_sh (x_outputs x)]
  | Err _ => []
  end.

(** ** C45: hysteresis *)

(** Each of the three thermostats: on stays on below target plus dead band, off
    switches on at or below target minus dead band. *)
Theorem C45_step : forall d g s t x y z gw gr ge bw br be, val (T_cyl t) x -> val (T_i t) y -> val (T_em t) z ->
  val (g_dhw g) gw -> val (g_sh g) gr -> val (g_em g) ge -> val (d_hw d) bw -> val (d_sh d) br -> val (d_em d) be ->
  exists s', thermostats_step d g s t None = Ok (g, s') /\
    (s_hw s' = true <-> (s_hw s = true /\ x < gw + bw) \/ (s_hw s = false /\ x <= gw - bw)) /\
    (s_sh s' = true <-> (s_sh s = true /\ y < gr + br) \/ (s_sh s = false /\ y <= gr - br)) /\
    (s_em s' = true <-> (s_em s = true /\ z < ge + be) \/ (s_em s = false /\ z <= ge - be)).
Proof.
  intros. eexists. split; [reflexivity|]. cbn [s_hw s_sh s_em]. split; [|split]; apply thermostat_val; assumption.
Qed.

(** Within the dead band it never switches. *)
Theorem C45_within_band : forall l on target band,
  (forall x, In x l -> target - band < x < target + band) -> thermostat_run on target band l = on.
Proof. exact thermostat_run_in_band. Qed.

(** Between two switchings of opposite direction the temperature crosses the
    whole band: from on to off at target plus band, from off to on at target
    minus band. *)
Theorem C45_switching : forall on target band x,
  (on = true -> thermostat on (Some x) (Some target) (Some band) = false -> target + band <= x) /\
  (on = false -> thermostat on (Some x) (Some target) (Some band) = true -> x <= target - band).
Proof.
  intros on target band x. split; intros -> H.
  - apply (thermostat_false true _ _ _ x target band) in H; try (apply val_some; reflexivity). destruct H as [[_ H]|[H _]]; [exact H|discriminate].
  - apply (thermostat_val false _ _ _ x target band) in H; try (apply val_some; reflexivity). destruct H as [[H _]|[_ H]]; [discriminate|exact H].
Qed.

(** New targets: an array is the room temperature, a dictionary replaces the
    targets it names, anything else is refused. *)
Theorem C45_new_targets : forall g v d,
  set_new_target g (TArray v) = Ok (Targets v (g_dhw g) (g_em g)) /\
  set_new_target g TOther = Err TypeError /\
  exists g', set_new_target g (TDict d) = Ok g' /\
    (forall k, k = "space_heating" \/ k = "dhw" \/ k = "emitter" -> ~ In k (map fst d) ->
       (k = "space_heating" -> g_sh g' = g_sh g) /\ (k = "dhw" -> g_dhw g' = g_dhw g) /\ (k = "emitter" -> g_em g' = g_em g))%string /\
    (NoDup (map fst d) -> forall v, (In ("space_heating", v) d -> g_sh g' = v) /\ (In ("dhw", v) d -> g_dhw g' = v) /\ (In ("emitter", v) d -> g_em g' = v))%string.
Proof.
  intros g v d. split; [reflexivity|]. split; [reflexivity|]. eexists. split; [reflexivity|]. clear v. revert g.
  induction d as [|[a b] d IH]; intro g; simpl; [split; [auto|intros _ v; tauto]|].
  destruct (IH (set_target g (a, b))) as [A B]. clear IH. split.
  - intros k Hk Hn. destruct (A k Hk) as (A1 & A2 & A3); [tauto|]. assert (N : a <> k) by tauto.
    unfold set_target in *. cbn [fst snd] in *.
    repeat split; intros E; [rewrite A1 by exact E|rewrite A2 by exact E|rewrite A3 by exact E];
    destruct (String.eqb_spec a "space_heating"); destruct (String.eqb_spec a "dhw"); destruct (String.eqb_spec a "emitter"); subst; try congruence; reflexivity.
  - intros Hd v. inversion Hd as [|? ? Hn Hd']; subst. destruct (B Hd' v) as (B1 & B2 & B3).
    split; [|split]; (intros [E|E]; [injection E as -> ->|auto]).
    + destruct (A "space_heating"%string ltac:(auto) Hn) as (A1 & _ & _). rewrite (A1 eq_refl). reflexivity.
    + destruct (A "dhw"%string ltac:(auto) Hn) as (_ & A2 & _). rewrite (A2 eq_refl). reflexivity.
    + destruct (A "emitter"%string ltac:(auto) Hn) as (_ & _ & A3). rewrite (A3 eq_refl). reflexivity.
Qed.

(** At the start: on below the target; all off without temperatures. *)
Theorem C45_initial : forall g t x y z gw gr ge, val (T_cyl t) x -> val (T_i t) y -> val (T_em t) z ->
  val (g_dhw g) gw -> val (g_sh g) gr -> val (g_em g) ge ->
  thermostats_init g None = TStates false false false /\
  exists s, thermostats_init g (Some t) = s /\ (s_hw s = true <-> x < gw) /\ (s_sh s = true <-> y < gr) /\ (s_em s = true <-> z < ge).
Proof.
  intros g t x y z gw gr ge H1 H2 H3 G1 G2 G3. split.
  - unfold thermostats_init.
    assert (I : forall a r, val a r -> nlt a a = false). { intros a r H. apply not_true_iff_false. intro E. apply (nlt_val _ _ _ _ H H) in E. lra. }
    rewrite (I _ _ G1), (I _ _ G2), (I _ _ G3). reflexivity.
  - eexists. split; [reflexivity|]. cbn [s_hw s_sh s_em]. split; [|split]; apply nlt_val; assumption.
Qed.

Example C45_example :
  thermostat_run false 20 1 [(39 # 2); 20; (41 # 2)] = false /\ thermostat_run false 20 1 [(39 # 2); 19; 20; (41 # 2)] = true /\
  thermostat_run false 20 1 [19; 20; 21; 20] = false /\
  thermostats_step bands0 targets0 (TStates false true false) temps0 (Some (TArray (Some 22))) =
    Ok (Targets (Some 22) (Some 50) (Some 50), TStates true true true).
Proof. conj_vm. Qed.

(** ** C46: limits of the heating system *)
Theorem C46_limits : forall m k q x y ms mw, val (q_dhw q) x -> val (q_sh q) y -> val (m_sh m) ms -> val (m_dhw m) mw -> 0 <= ms -> 0 <= mw ->
  exists od os, val (o_dhw (system_step m k q)) od /\ val (o_sh (system_step m k q)) os /\ val (o_total (system_step m k q)) (os + od) /\
    0 <= od <= mw /\ 0 <= os <= ms /\ (os + od <= ms \/ os + od <= mw) /\
    (k_on k = false -> od == 0 /\ os == 0) /\ (k_hw k = false -> od == 0) /\ (k_sh k = false -> os == 0).
Proof.
  intros m k q x y ms mw H1 H2 H3 H4 H5 H6.
  destruct (system_outputs m k q x y ms mw H1 H2 H3 H4 H5 H6) as (od & os & r & A1 & A2 & A3 & _ & Rr & D1 & D2 & S1 & S2 & S3).
  exists od, os. split; [exact A1|]. split; [exact A2|]. split; [exact A3|].
  destruct k as [on hw sh]; cbn [k_on k_hw k_sh] in *. destruct on; cbn [andb] in *; [|specialize (D2 eq_refl); specialize (S1 eq_refl)].
  2:{ split; [lra|]. split; [lra|]. split; [left; lra|]. split; [split; assumption|]. split; intro; assumption. }
  destruct sh; [|specialize (S1 eq_refl)]; (destruct hw; [specialize (D1 eq_refl)|specialize (D2 eq_refl)]).
  - destruct (S3 eq_refl eq_refl eq_refl) as [T1 T2]. destruct (Qlt_le_dec ms r) as [L|L].
    + specialize (T2 ltac:(lra)). repeat split; try lra; try discriminate; right; lra.
    + destruct (T1 L) as [_ T]. repeat split; try lra; try discriminate; left; lra.
  - destruct (S2 eq_refl eq_refl eq_refl) as [_ T]. repeat split; try lra; try discriminate; left; lra.
  - repeat split; try lra; try discriminate; right; lra.
  - repeat split; try lra; try discriminate; left; lra.
Qed.

(** Hot water comes first, what is left serves the space heating; the demands
    are met when there is enough. *)
Theorem C46_priority : forall m k q x y ms mw, val (q_dhw q) x -> val (q_sh q) y -> val (m_sh m) ms -> val (m_dhw m) mw -> 0 <= ms -> 0 <= mw ->
  exists od os, val (o_dhw (system_step m k q)) od /\ val (o_sh (system_step m k q)) os /\
    (k_on k = true -> k_hw k = true -> limited x mw od) /\
    (k_on k = true -> k_sh k = true -> k_hw k = false -> limited y ms os) /\
    (k_on k = true -> k_sh k = true -> k_hw k = true -> (od <= ms -> limited y (ms - od) os) /\ (ms <= od -> os == 0)).
Proof.
  intros m k q x y ms mw H1 H2 H3 H4 H5 H6.
  destruct (system_outputs m k q x y ms mw H1 H2 H3 H4 H5 H6) as (od & os & r & A1 & A2 & A3 & Lr & Rr & D1 & D2 & S1 & S2 & S3).
  exists od, os. split; [exact A1|]. split; [exact A2|].
  assert (E : k_on k = true -> k_hw k = true -> od == r) by (intros K1 K2; apply D1; rewrite K1, K2; reflexivity).
  split; [|split].
  - intros K1 K2. specialize (E K1 K2). destruct Lr as (L1 & L2 & L3). unfold limited. split; [|split]; intros; rewrite E; auto.
  - intros K1 K2 K3. apply S2; assumption.
  - intros K1 K2 K3. specialize (E K1 K3). destruct (S3 K1 K2 K3) as [T1 T2]. split; intro L.
    + destruct (T1 ltac:(lra)) as [(L1 & L2 & L3) _]. unfold limited. split; [|split]; intros; rewrite ?E; auto.
      * apply L2. lra.
      * apply L3; lra.
    + apply T2. lra.
Qed.

Example C46_example :
  system_step pump0 (Controls true true true) (Demand (Some 2000) (Some 9000)) = Outputs (Some 2000) (Some (3600 - 2000)) (Some (3600 - 2000 + 2000)) /\
  system_step pump0 (Controls true true true) (Demand (Some 9000) (Some 9000)) = Outputs (Some 5925) (Some 0) (Some (0 + 5925)) /\
  system_step pump0 (Controls true false true) (Demand (Some 9000) (Some 9000)) = Outputs (Some 0) (Some 3600) (Some (3600 + 0)).
Proof. conj_vm. Qed.

(** ** C47: splitting an external output *)
Theorem C47_conserved : forall heat k q z x y, val heat z -> val (q_dhw q) x -> val (q_sh q) y ->
  exists d s, val (fst (split_heat heat k q)) d /\ val (snd (split_heat heat k q)) s /\ d + s == z /\ (0 <= z -> 0 <= d /\ 0 <= s).
Proof.
  intros heat k q z x y H1 H2 H3. destruct (split_val heat k q z x y H1 H2 H3) as (d & s & A & B & C & D).
  exists d, s. split; [exact A|]. split; [exact B|]. split; [exact C|]. intro P. destruct (D P) as (D1 & D2 & _). auto.
Qed.

(** Hot water is served first, then the space heating; the surplus goes to the
    hot water, and nothing to the space if it is not to be heated. *)
Theorem C47_priority : forall heat k q z x y, val heat z -> val (q_dhw q) x -> val (q_sh q) y -> 0 <= z ->
  exists d s, val (fst (split_heat heat k q)) d /\ val (snd (split_heat heat k q)) s /\
    (k_on k = false \/ k_sh k = false -> s == 0 /\ d == z) /\
    (k_on k = true -> k_sh k = true -> k_hw k = false -> limited y z s) /\
    (k_on k = true -> k_sh k = true -> k_hw k = true ->
       (0 <= x -> x <= z -> x <= d /\ (0 <= y -> x + y <= z -> s == y)) /\ (z <= x -> d == z)).
Proof.
  intros heat k q z x y H1 H2 H3 P. destruct (split_val heat k q z x y H1 H2 H3) as (d & s & A & B & C & D).
  destruct (D P) as (D1 & D2 & D3 & D4 & D5). exists d, s. split; [exact A|]. split; [exact B|]. split; [|split].
  - intro K. assert (s == 0) by (apply D3; destruct K as [K|K]; rewrite K; [reflexivity|apply andb_false_r]). split; lra.
  - intros K1 K2 K3. apply D4; assumption.
  - intros K1 K2 K3. split.
    + intros Px Lx. destruct (D5 K1 K3 K2 x) as (E1 & E2 & E3). { unfold limited. split; [|split]; intros; lra. }
      destruct (Qlt_le_dec y 0); [rewrite (E1 ltac:(lra)) in C; split; intros; lra|].
      destruct (Qlt_le_dec (z - x) y); [rewrite (E3 ltac:(lra) ltac:(lra)) in C; split; intros; lra|].
      assert (E : s == y) by (apply E2; lra). split; [lra|intros; exact E].
    + intros Lx. destruct (D5 K1 K3 K2 z) as (E1 & E2 & E3). { unfold limited. split; [|split]; intros; lra. }
      assert (s == 0); [|lra]. destruct (Qlt_le_dec y 0); [apply E1; lra|]. rewrite E3; lra.
Qed.

(** Seen from the five modules: what is given as an array arrives. *)
Theorem C47_delivered : forall p x i x' z a b, five_step p x i = Ok x' -> i_heat i = HeatArray (Some z) -> i_dhw i = None -> i_sh i = None ->
  val (q_dhw (x_demand x)) a -> val (q_sh (x_demand x)) b ->
  exists d s, val (o_dhw (x_outputs x')) d /\ val (o_sh (x_outputs x')) s /\ d + s == z /\ x_ext_sys x' = true.
Proof.
  intros p x i x' z a b H Hh Hd Hs Ha Hb. assert (Vz : val (Some z) z) by (apply val_some; reflexivity).
  destruct (split_val (Some z) (x_controls x) (x_demand x) z a b Vz Ha Hb) as (d & s & A & B & C & _).
  unfold five_step in H. rewrite Hh, Hd, Hs in H. unfold external_outputs in H.
  destruct (split_heat (Some z) (x_controls x) (x_demand x)) as [u v] eqn:E. cbn [fst snd] in A, B.
  destruct (thermostats_step _ _ _ _ _) as [[g t]|]; cbn [bind] in H; [|discriminate].
  destruct (demand_step _ _ _ _ _ _ _ _ _) as [[q algo]|]; cbn [bind] in H; [|discriminate].
  destruct A as (u' & -> & Eu). destruct B as (v' & -> & Ev). cbn in H.
  exists d, s. destruct (i_cyl i); injection H as <-; cbn; (split; [exists u'; auto|]; split; [exists v'; auto|]; split; [exact C|reflexivity]).
Qed.

Example C47_example :
  split_heat (Some 5000) (Controls true true true) (Demand (Some 2000) (Some 1000)) = (Some (2000 + (5000 - 1000 - 2000)), Some 1000) /\
  split_heat (Some 2500) (Controls true true true) (Demand (Some 2000) (Some 1000)) = (Some (2000 + (2500 - (2500 - 2000) - 2000)), Some (2500 - 2000)) /\
  split_heat (Some 2500) (Controls true false true) (Demand (Some 2000) (Some 1000)) = (Some (0 + (2500 - 1000 - 0)), Some 1000).
Proof. conj_vm. Qed.

(** ** C48: the demand reaches the target *)

(** Hot water: delivering the demand brings the cylinder to the target plus the
    dead band in one step; less leaves it below, more above. *)
Theorem C48_hot_water : forall dt q d b c h t v g gd bhw w o e, val dt q -> 0 < q -> house_is b c h -> house_ok h -> temps_are t v ->
  val (g_dhw g) gd -> val (d_hw d) bhw -> drive_is w o e ->
  exists need v', val (demand_hot_water dt d c t g (w_dhw w)) need /\ temps_are (building_step dt b c t w o) v' /\
    (v_dhw e == need -> t_c v' == gd + bhw) /\ (v_dhw e <= need -> t_c v' <= gd + bhw) /\ (need <= v_dhw e -> gd + bhw <= t_c v').
Proof.
  intros dt q d b c h t v g gd bhw w o e Hq Pq Hh Hok Ht Hg Hb He.
  destruct (building_flows dt b c t w o h e v q Hq Hh Hok Ht He) as (v' & Ht' & Hf).
  pose proof Hh as (B1 & B2 & B3 & B4 & B5 & B6 & B7 & B8 & B9 & B10). pose proof He as (_ & _ & E3 & _).
  eexists. exists v'. split; [eapply hot_water_val; eassumption|]. split; [exact Ht'|].
  exact (cylinder_reach q h e v v' (gd + bhw) Pq Hok Hf).
Qed.

(** Emitters, algorithm 'heat_max_emmiters'. *)
Theorem C48_emitters : forall dt q d b c h t v g ge bem w o e, val dt q -> 0 < q -> house_is b c h -> house_ok h -> temps_are t v ->
  val (g_em g) ge -> val (d_em d) bem -> drive_is w o e ->
  exists need v', val (demand_emitters dt d b t g) need /\ temps_are (building_step dt b c t w o) v' /\
    (v_sh e == need -> t_e v' == ge + bem) /\ (v_sh e <= need -> t_e v' <= ge + bem) /\ (need <= v_sh e -> ge + bem <= t_e v').
Proof.
  intros dt q d b c h t v g ge bem w o e Hq Pq Hh Hok Ht Hg Hb He.
  destruct (building_flows dt b c t w o h e v q Hq Hh Hok Ht He) as (v' & Ht' & Hf).
  pose proof Hh as (B1 & B2 & B3 & B4 & B5 & B6 & B7 & B8 & B9 & B10).
  eexists. exists v'. split; [eapply emitters_val; eassumption|]. split; [exact Ht'|].
  exact (emitter_reach q h e v v' (ge + bem) Pq Hok Hf).
Qed.

(** The room, algorithm 'room_estimation', with walls that are at rest between
    the room and the outside: if the room receives the demand besides what the
    emitters give off, it reaches target plus dead band in one step; with less it
    stays below, with more it ends above. *)
Theorem C48_room : forall dt q d b c h t v g gr bsh w o e, val dt q -> 0 < q -> house_is b c h -> house_ok h -> 0 < h_bi h -> 0 < h_ob h ->
  temps_are t v -> val (g_sh g) gr -> val (d_sh d) bsh -> drive_is w o e ->
  h_ob h * (v_out e - t_b v) + h_bi h * (t_i v - t_b v) == 0 ->
  exists n need v', demand_space "room_estimation" dt d b t g (Some (w_out w)) = Ok (n, "room_estimation"%string) /\ val n need /\
    temps_are (building_step dt b c t w o) v' /\
    let got := free_heat h e + h_loss h * (t_c v - t_i v) in
    (got == need -> t_i v' == gr + bsh) /\ (got <= need -> t_i v' <= gr + bsh) /\ (need <= got -> gr + bsh <= t_i v').
Proof.
  intros dt q d b c h t v g gr bsh w o e Hq Pq Hh Hok Px Py Ht Hg Hb He St.
  destruct (building_flows dt b c t w o h e v q Hq Hh Hok Ht He) as (v' & Ht' & Hf).
  pose proof Hh as (B1 & B2 & B3 & B4 & B5 & B6 & B7 & B8 & B9 & B10). pose proof He as (E1 & _).
  destruct (room_val dt d b t g (w_out w) q bsh (ci h) (h_bi h) (h_ob h) (h_v h) (h_em h) v gr (v_out e)) as (s & Es & Hn); try assumption.
  do 2 eexists. exists v'. split; [reflexivity|]. split; [exact Hn|]. split; [exact Ht'|].
  exact (room_reach q h e v v' (gr + bsh) s Pq Hok Hf Es Px Py St).
Qed.

(** The heating system gives the demand to the emitters, so the room itself does
    not get there: here it ends more than a degree below. *)
Theorem C48_room_refuted : exists p x w x' need t, val (p_dt p) 60 /\ x_algo x = "room_estimation"%string /\
  five_step p x (internal w) = Ok x' /\ val (q_sh (x_demand x')) need /\ val (o_sh (x_outputs x')) need /\
  val (g_sh (x_targets x')) 20 /\ val (d_sh (p_bands p)) 1 /\ val (T_i (x_temps x')) t /\ t < 20.
Proof.
  exists (HPar (Some 60) bands0 building0 (HSystem (Some 21750) (Some 21750) (Some 20) (Some 10) (Some (261 # 100)) (Some 29000) "Mainsgas" false cylinder0)).
  exists (HState (Temps (Some 12) (Some 19) (Some 40) (Some 54) (Some 10)) targets0 (TStates false true true) controls_off
    (Demand (Some 0) (Some 0)) "room_estimation" (Outputs (Some 0) (Some 0) (Some 0)) false false (Some 0)).
  exists (Gains (Some 18) (Some 0) (Some 0) (Some 0) (Some 0) (Some 0)). eexists. do 2 eexists. assert (V : forall q, val (Some q) q) by (intro; apply val_some; reflexivity).
  split; [apply V|]. split; [reflexivity|]. split; [vm_compute; reflexivity|]. split; [apply V|]. split; [apply val_some; vm_compute; reflexivity|].
  split; [apply V|]. split; [apply V|]. split; [apply V|]. vm_compute. reflexivity.
Qed.

(** The whole simulator, stepped by minutes: whenever hot water is heated and
    the demand is within the rating, the cylinder ends at target plus dead band. *)
Theorem C48_closed_loop : forall p x w P v g d, plant_is p P -> temps_are (x_temps x) v -> targets_are (x_targets x) g -> weather_is w d ->
  x_algo x = "heat_max_emmiters"%string -> pl_dt P == 60 ->
  exists x' v' need, five_step p x (internal w) = Ok x' /\ temps_are (x_temps x') v' /\ val (q_dhw (x_demand x')) need /\
    (k_hw (x_controls x') = true -> 0 <= need <= pl_dhw P -> t_c v' == t_water g + pl_bhw P).
Proof.
  intros p x w P v g d HP Ht Hg Hw Ha Hdt.
  destruct (five_internal p x w P v g d HP Ht Hg Hw Ha) as (x' & q1 & q2 & od & os & v' & Hstep & _ & _ & _ & _ & Hk & (Q1 & _) & D1 & D2 & Ho & O1 & O2 & Ht' & Hf).
  exists x', v', q1. split; [exact Hstep|]. split; [exact Ht'|]. split; [exact D1|]. intros K R.
  destruct HP as (_ & Hok & Hms & Hmw & Pms & Pmw & _). rewrite Ho in O1.
  destruct (system_outputs (p_system p) (x_controls x') (x_demand x') q1 q2 _ _ D1 D2 Hms Hmw Pms Pmw) as (od' & os' & r & A1 & _ & _ & Lr & _ & E1 & _).
  assert (K1 : k_on (x_controls x') = true). { rewrite Hk in *. unfold controls_step in *. cbn [k_on k_hw] in *. rewrite K. reflexivity. }
  assert (Eo : od == q1). { rewrite (val_fun _ _ _ O1 A1), E1; [|rewrite K1, K; reflexivity]. destruct Lr as (_ & L & _). apply L. exact R. }
  destruct (cylinder_reach (pl_dt P) (pl_house P) (with_heat d od os) v v' (t_water g + pl_bhw P)) as (S1 & _); [lra|exact Hok|exact Hf|].
  apply S1. cbn. rewrite Eo, Q1, Hdt. reflexivity.
Qed.

(** It does not with any other step size: the demand is computed for a minute.
    With steps of ten minutes the cylinder, half a degree below its goal, ends
    four degrees above it. *)
Theorem C48_step_size_refuted : exists p x w x' need goal t, val (p_dt p) 600 /\
  five_step p x (internal w) = Ok x' /\ k_hw (x_controls x') = true /\ val (q_dhw (x_demand x')) need /\
  val (o_dhw (x_outputs x')) need /\ val (g_dhw (x_targets x')) (goal - 5) /\ val (d_hw (p_bands p)) 5 /\ val (T_cyl (x_temps x')) t /\ goal + 4 < t.
Proof.
  exists (HPar (Some 600) bands0 building0 pump0).
  exists (HState (Temps (Some 12) (Some 19) (Some 40) (Some (109 # 2)) (Some 10)) targets0 (TStates true false false) controls_off
    (Demand (Some 0) (Some 0)) "heat_max_emmiters" (Outputs (Some 0) (Some 0) (Some 0)) false false (Some 0)).
  exists (winter 0). eexists. exists (210000 / 60 * (1 # 2) + (1 # 2) * (71 # 2)). exists 55. eexists.
  split; [apply val_some; reflexivity|]. split; [vm_compute; reflexivity|]. split; [reflexivity|].
  split; [apply val_some; vm_compute; reflexivity|]. split; [apply val_some; vm_compute; reflexivity|].
  split; [apply val_some; vm_compute; reflexivity|]. split; [apply val_some; vm_compute; reflexivity|].
  split; [apply val_some; reflexivity|]. vm_compute. reflexivity.
Qed.

Example C48_example :
  look (five_step par0 (HState (Temps (Some 12) (Some 19) (Some 40) (Some 54) (Some 10)) targets0 (TStates true true true) controls_off
    (Demand (Some 0) (Some 0)) "heat_max_emmiters" (Outputs (Some 0) (Some 0) (Some 0)) false false (Some 0)) (internal (winter 0))) =
  [Some (31290562 # 2607951); Some (10127347 # 530743); Some (2313130 # 58837); Some 55; Some (7035 # 2); Some (165 # 2)].
Proof. vm_compute. reflexivity. Qed.

(** ** C49: conservation and stability *)

(** The step moves heat between the parts: every flow leaving a part enters
    another one or the outside. *)
Theorem C49_flows : forall dt b c t w o h d v q, val dt q -> house_is b c h -> house_ok h -> temps_are t v -> drive_is w o d ->
  exists v', temps_are (building_step dt b c t w o) v' /\ heat_flows q h d v v'.
Proof. exact building_flows. Qed.

(** Stored heat. *)
Theorem C49_energy : forall dt b c t w o h d v q, val dt q -> house_is b c h -> house_ok h -> temps_are t v -> drive_is w o d ->
  exists v', temps_are (building_step dt b c t w o) v' /\
    stored h v' - stored h v == q * (v_dhw d + v_sh d + free_heat h d - h_ob h * (t_b v - v_out d) - h_v h * (t_i v - v_out d) - v_draw d * (t_c v - t_w v)).
Proof.
  intros dt b c t w o h d v q Hq Hh Hok Ht Hd. destruct (building_flows dt b c t w o h d v q Hq Hh Hok Ht Hd) as (v' & Ht' & F1 & F2 & F3 & F4 & _).
  exists v'. split; [exact Ht'|]. cbv zeta in *. unfold stored. lra.
Qed.

(** With a short step more heat, warmer weather or a warmer start never make
    any part cooler. *)
Theorem C49_comparison : forall dt b c t t2 w w2 o o2 h d e v u q, val dt q -> house_is b c h -> house_ok h ->
  temps_are t v -> temps_are t2 u -> drive_is w o d -> drive_is w2 o2 e ->
  short_step q h (v_draw d) -> v_draw e == v_draw d -> v_out d <= v_out e -> free_heat h d <= free_heat h e ->
  v_dhw d <= v_dhw e -> v_sh d <= v_sh e -> cooler v u ->
  exists v' u', temps_are (building_step dt b c t w o) v' /\ temps_are (building_step dt b c t2 w2 o2) u' /\ cooler v' u'.
Proof.
  intros dt b c t t2 w w2 o o2 h d e v u q Hq Hh Hok Ht Hu Hd He Hs E1 L1 L2 L3 L4 Hc.
  destruct (building_flows dt b c t w o h d v q Hq Hh Hok Ht Hd) as (v' & Ht' & Hf).
  destruct (building_flows dt b c t2 w2 o2 h e u q Hq Hh Hok Hu He) as (u' & Hu' & Hg).
  exists v', u'. split; [exact Ht'|]. split; [exact Hu'|]. exact (flows_mono q h d e v u v' u' Hok Hs E1 L1 L2 L3 L4 Hc Hf Hg).
Qed.

(** Any number of short steps without heat, under any weather and hot water
    use: the temperatures stay in the range spanned by the start, the outside
    and the cold water. *)
Theorem C49_range : forall dt b c h q lo hi l t v, val dt q -> house_is b c h -> house_ok h -> temps_are t v -> within lo hi v ->
  (forall w o, In (w, o) l -> exists d, drive_is w o d /\ short_step q h (v_draw d) /\ lo <= v_out d <= hi /\
     free_heat h d == 0 /\ v_dhw d == 0 /\ v_sh d == 0) ->
  exists v', temps_are (building_run dt b c l t) v' /\ within lo hi v'.
Proof. exact run_within. Qed.

(** The condition on the step is needed: a five litre cylinder (a combi boiler)
    from which ten litres are drawn in a minute ends below the freezing point
    though the tap water has ten degrees. *)
Theorem C49_coarse_step_refuted : exists b c h t v w o d v', val (Some 60) 60 /\ house_is b c h /\ house_ok h /\ temps_are t v /\ within 10 50 v /\
  drive_is w o d /\ 10 <= v_out d <= 50 /\ v_draw d == 10 * 4200 / 60 /\ cc h == 5 * 4200 /\ free_heat h d == 0 /\ v_dhw d == 0 /\ v_sh d == 0 /\
  temps_are (building_step (Some 60) b c t w o) v' /\ t_c v' < 0.
Proof.
  exists building0, (cylinder_of (Some 5) (Some (1 # 2))), (House 15647706 530743 176511 21000 216 301 10 100 (1 # 2) 5).
  exists (Temps (Some 12) (Some 19) (Some 40) (Some 50) (Some 10)), (T5 12 19 40 50 10).
  exists (Gains (Some 15) (Some 0) (Some 700) (Some 0) (Some 0) (Some 0)), (Outputs (Some 0) (Some 0) (Some 0)), (Drive 15 0 700 0 0 0 0 0).
  eexists (T5 _ _ _ _ _).
  assert (V : forall q, val (Some q) q) by (intro; apply val_some; reflexivity).
  split; [apply V|]. split; [repeat split; apply V|]. split; [repeat split; simpl; lra|]. split; [repeat split; apply V|].
  split; [repeat split; simpl; lra|]. split; [repeat split; apply V|]. split; [simpl; lra|]. split; [reflexivity|]. split; [reflexivity|].
  split; [reflexivity|]. split; [reflexivity|]. split; [reflexivity|].
  split; [repeat split; cbn; apply V|]. vm_compute. reflexivity.
Qed.

Example C49_example : house_is building0 cylinder0 house0 /\ house_ok house0 /\ short_step 60 house0 700 /\
  temps_are temps0 (T5 12 19 40 45 10) /\ within 0 50 (T5 12 19 40 45 10) /\ ~ short_step 1800 house0 0.
Proof.
  assert (V : forall q, val (Some q) q) by (intro; apply val_some; reflexivity).
  split; [repeat split; apply V|]. split; [repeat split; simpl; lra|]. split; [repeat split; simpl; lra|].
  split; [repeat split; apply V|]. split; [repeat split; simpl; lra|]. intros (_ & _ & _ & A & _). vm_compute in A. apply A. reflexivity.
Qed.

(** ** C75: households without external components *)

(** A household for which the external arrays say nothing evolves as if there
    were none. *)
Theorem C75_absent_partial : forall p x i, i_target i = None -> heat_absent (i_heat i) -> absent (i_dhw i) -> absent (i_sh i) -> absent (i_cyl i) ->
  match five_step p x i, five_step p x (internal (i_gains i)) with
  | Ok a, Ok b => same_view a b
  | Err e, Err f => e = f
  | _, _ => False
  end.
Proof. exact five_absent. Qed.

(** Not so when the external heat is given as one array: the nan of a household
    whose space heating was off becomes an external space heating of zero, and
    its own electricity is no longer counted. *)
Theorem C75_heat_array_refuted : exists p x i x1 x2, i_heat i = HeatArray None /\ i_target i = None /\ i_dhw i = None /\ i_sh i = None /\ i_cyl i = None /\
  five_step p x i = Ok x1 /\ five_step p x (internal (i_gains i)) = Ok x2 /\
  x_ext_sys x1 = true /\ x_ext_sys x2 = false /\ (exists q, val (o_sh (x_outputs x2)) q /\ 3000 < q) /\ val (o_sh (x_outputs x1)) 0 /\
  five_power [(p, x1)] = Ok [Some 0] /\ (exists e, five_power [(p, x2)] = Ok [Some e] /\ 1500 < e).
Proof.
  exists par0, (five_init "heat_max_emmiters" (Temps (Some 12) (Some 18) (Some 40) (Some 55) (Some 10)) targets0),
    (HInput (winter 0) None (HeatArray None) None None None). eexists. eexists.
  split; [reflexivity|]. split; [reflexivity|]. split; [reflexivity|]. split; [reflexivity|]. split; [reflexivity|].
  split; [vm_compute; reflexivity|]. split; [vm_compute; reflexivity|]. split; [reflexivity|]. split; [reflexivity|].
  split. { eexists. split; [apply val_some; reflexivity|]. vm_compute. reflexivity. }
  split; [apply val_some; reflexivity|]. split; [vm_compute; reflexivity|].
  eexists. split; [vm_compute; reflexivity|]. vm_compute. reflexivity.
Qed.

(** Nor for target temperatures: nan replaces the own target, and the house is
    no longer heated however cold it is. *)
Theorem C75_target_refuted : exists p x i x1 x2, i_target i = Some (TArray None) /\ i_heat i = NoHeat /\ i_dhw i = None /\ i_sh i = None /\ i_cyl i = None /\
  five_step p x i = Ok x1 /\ five_step p x (internal (i_gains i)) = Ok x2 /\
  k_sh (x_controls x2) = true /\ k_sh (x_controls x1) = false /\
  (forall l y, (forall j, In j l -> i_target j = None) -> five_run p x1 l = Ok y -> s_sh (x_therm y) = false).
Proof.
  exists par0, (five_init "heat_max_emmiters" (Temps (Some 2) (Some 3) (Some 4) (Some 55) (Some 10)) targets0),
    (HInput (winter 0) (Some (TArray None)) NoHeat None None None). eexists. eexists.
  split; [reflexivity|]. split; [reflexivity|]. split; [reflexivity|]. split; [reflexivity|]. split; [reflexivity|].
  split; [vm_compute; reflexivity|]. split; [vm_compute; reflexivity|]. split; [reflexivity|]. split; [reflexivity|].
  match goal with |- forall l y, _ -> five_run _ ?x1 l = _ -> _ => assert (G1 : g_sh (x_targets x1) = None) by reflexivity; assert (G2 : s_sh (x_therm x1) = false) by reflexivity; generalize x1, G1, G2 end.
  clear. intros x1 G1 G2 l. revert x1 G1 G2. induction l as [|j l IH]; intros x1 G1 G2 y Hl H; simpl in H; [injection H as <-; exact G2|].
  destruct (five_step par0 x1 j) as [x2|] eqn:E; simpl in H; [|discriminate]. apply (IH x2); auto; [| |intros k Hk; apply Hl; now right].
  - unfold five_step in E. rewrite (Hl j (or_introl eq_refl)) in E. unfold thermostats_step in E. cbn [bind] in E.
    destruct (demand_step _ _ _ _ _ _ _ _ _) as [[q algo]|]; cbn [bind] in E; [|discriminate].
    destruct (set_outputs _ _); cbn [bind] in E; [|discriminate]. destruct (i_cyl j); injection E as <-; exact G1.
  - unfold five_step in E. rewrite (Hl j (or_introl eq_refl)) in E. unfold thermostats_step in E. cbn [bind] in E.
    destruct (demand_step _ _ _ _ _ _ _ _ _) as [[q algo]|]; cbn [bind] in E; [|discriminate].
    destruct (set_outputs _ _); cbn [bind] in E; [|discriminate].
    assert (T : thermostat (s_sh (x_therm x1)) (T_i (x_temps x1)) (g_sh (x_targets x1)) (d_sh (p_bands par0)) = false).
    { rewrite G1, G2. unfold thermostat. cbn. destruct (T_i (x_temps x1)); reflexivity. }
    destruct (i_cyl j); injection E as <-; exact T.
Qed.

Example C75_example : heat_absent (HeatDict [("dhw", None); ("space_heating", None)]%string) /\ absent (Some None) /\
  match five_step par0 start0 (HInput (winter 1) None (HeatDict [("dhw", None)]%string) (Some None) None (Some None)) with
  | Ok x => x_ext_sys x = false /\ k_hw (x_controls x) = true | Err _ => False end.
Proof.
  split; [|split; [now right|vm_compute; split; reflexivity]]. right. eexists. split; [reflexivity|]. intros k v [E|[E|[]]]; injection E as <- <-; auto.
Qed.

(** ** C76: reported heat outputs *)

(** The total of the heat outputs is their sum without external outputs. *)
Theorem C76_total_partial : forall p x w x' a b, five_step p x (internal w) = Ok x' ->
  val (o_dhw (x_outputs x')) a -> val (o_sh (x_outputs x')) b -> val (o_total (x_outputs x')) (b + a).
Proof.
  intros p x w x' a b H Ha Hb. unfold five_step, internal in H. cbn [i_gains i_target i_heat i_dhw i_sh i_cyl external_outputs set_outputs] in H.
  unfold thermostats_step in H. cbn [bind] in H. destruct (demand_step _ _ _ _ _ _ _ _ _) as [[q algo]|]; cbn [bind] in H; [|discriminate].
  injection H as <-. cbn [x_outputs] in *. unfold system_step in *. cbn [o_dhw o_sh o_total] in *. apply val_add; assumption.
Qed.

(** With an external output the total is that of the internal system. *)
Theorem C76_total_refuted : exists p x i x' a b t, five_step p x i = Ok x' /\ val (o_dhw (x_outputs x')) a /\ val (o_sh (x_outputs x')) b /\
  val (o_total (x_outputs x')) t /\ ~ t == a + b.
Proof.
  exists par0, (five_init "heat_max_emmiters" (Temps (Some 12) (Some 20) (Some 40) (Some 55) (Some 10)) targets0),
    (HInput (winter 0) None NoHeat (Some (Some 1000)) None None). eexists. exists 1000, 0, 0.
  split; [vm_compute; reflexivity|]. split; [apply val_some; reflexivity|]. split; [apply val_some; reflexivity|]. split; [apply val_some; reflexivity|].
  intro H. vm_compute in H. discriminate.
Qed.

(** External values replace the internal ones. *)
Theorem C76_external : forall p x i x' e, five_step p x i = Ok x' -> i_heat i = NoHeat ->
  (i_dhw i = Some (Some e) -> o_dhw (x_outputs x') = Some e /\ x_ext_sys x' = true) /\
  (i_sh i = Some (Some e) -> o_sh (x_outputs x') = Some e /\ x_ext_sys x' = true).
Proof.
  intros p x i x' e H Hh. unfold five_step in H. rewrite Hh in H.
  destruct (thermostats_step _ _ _ _ _) as [[g t]|]; cbn [bind] in H; [|discriminate].
  destruct (demand_step _ _ _ _ _ _ _ _ _) as [[q algo]|]; cbn [bind] in H; [|discriminate].
  split; intro E; rewrite E in H; cbn [external_outputs dset String.eqb] in H.
  - destruct (i_sh i) as [[s|]|]; cbn in H; destruct (i_cyl i); injection H as <-; split; reflexivity.
  - destruct (i_dhw i) as [[s|]|]; cbn in H; destruct (i_cyl i); injection H as <-; split; reflexivity.
Qed.

Example C76_example :
  match five_step par0 start0 (HInput (winter 1) None NoHeat None (Some (Some 700)) None) with
  | Ok x => o_sh (x_outputs x) = Some 700 /\ five_power [(par0, x)] = Ok [Some 0] | Err _ => False end.
Proof. vm_compute. split; reflexivity. Qed.

(** ** C77: electricity and energy of the heating system *)

(** Electricity demand of each household: its pump (or standby) power, plus
    for an electric heater that is on its rating times the load fraction. *)
Theorem C77_power : forall l v k h ms mw fl pw os od, system_power l = Ok v -> at_ l k h ->
  val (m_sh (h_sys h)) ms -> val (m_dhw (h_sys h)) mw -> 0 < ms -> 0 < mw -> val (m_flow (h_sys h)) fl ->
  val (if k_sh (h_ctl h) then m_pump (h_sys h) else m_standby (h_sys h)) pw -> val (o_sh (h_out h)) os -> val (o_dhw (h_out h)) od ->
  exists e, at_ v k e /\
    (m_fuel (h_sys h) = "Electricity"%string -> k_on (h_ctl h) = true -> val e (pw + fl * 1000 * (os / ms + od / mw))) /\
    (m_fuel (h_sys h) <> "Electricity"%string \/ k_on (h_ctl h) = false -> val e pw).
Proof.
  intros l v k h ms mw fl pw os od H Hk Hms Hmw Pms Pmw Hfl Hpw Hos Hod. rewrite (system_power_eq _ _ H).
  exists (nadd (pump_power (h_sys h) (h_ctl h)) (fuel_of "Electricity" h)). split; [unfold at_ in *; rewrite nth_error_map, Hk; reflexivity|].
  assert (Hpw' : val (pump_power (h_sys h) (h_ctl h)) pw) by exact Hpw.
  assert (Z : val (Some 0) 0) by (apply val_some; reflexivity).
  assert (K : val (Some 1000) 1000) by (apply val_some; reflexivity).
  unfold fuel_of, heating_occurs, load_fraction, nwhere. split.
  - intros F On. rewrite F, On. assert (P1 : nlt (Some 0) (m_sh (h_sys h)) = true) by (apply (nlt_val _ _ _ _ Z Hms); exact Pms).
    rewrite P1. cbn. apply val_add; [exact Hpw'|]. apply val_mul; [apply val_mul; [exact Hfl|exact K]|].
    apply val_add; apply val_div; auto; lra.
  - intros [F|On].
    + apply String.eqb_neq in F. rewrite F. cbn [andb]. apply (val_eq _ (pw + 0)); [apply val_add; assumption|ring].
    + rewrite On, andb_false_r. apply (val_eq _ (pw + 0)); [apply val_add; assumption|ring].
Qed.

(** The electric part does not exceed the rating when hot water may use at
    least as much heat as the space heating. *)
Theorem C77_rating_partial : forall m k q x y ms mw fl, val (q_dhw q) x -> val (q_sh q) y -> val (m_sh m) ms -> val (m_dhw m) mw -> 0 < ms -> ms <= mw ->
  val (m_flow m) fl -> 0 <= fl -> m_fuel m = "Electricity"%string ->
  exists e, val (fuel_of "Electricity" (Heated m k (system_step m k q))) e /\ 0 <= e <= fl * 1000.
Proof.
  intros m k q x y ms mw fl Hx Hy Hms Hmw Pms Lm Hfl Pfl Hf.
  destruct (C46_limits m k q x y ms mw Hx Hy Hms Hmw ltac:(lra) ltac:(lra)) as (od & os & V1 & V2 & _ & R1 & R2 & S & Off & _ & _).
  destruct (system_outputs m k q x y ms mw Hx Hy Hms Hmw ltac:(lra) ltac:(lra)) as (od' & os' & r & W1 & W2 & _ & _ & _ & D1 & D2 & S1 & S2 & S3).
  pose proof (val_fun _ _ _ V1 W1) as Ed. pose proof (val_fun _ _ _ V2 W2) as Es.
  assert (Z : val (Some 0) 0) by (apply val_some; reflexivity). assert (K : val (Some 1000) 1000) by (apply val_some; reflexivity).
  unfold fuel_of, heating_occurs, load_fraction, nwhere. cbn [h_sys h_ctl h_out]. rewrite Hf. cbn [String.eqb Ascii.eqb Bool.eqb andb].
  assert (P1 : nlt (Some 0) (m_sh m) = true) by (apply (nlt_val _ _ _ _ Z Hms); exact Pms). rewrite P1. cbn [orb].
  destruct (k_on k) eqn:On; cbn [andb]; [|exists 0; split; [exact Z|split; [lra|nra]]].
  exists (fl * 1000 * (os / ms + od / mw)). split.
  { apply val_mul; [apply val_mul; [exact Hfl|exact K]|]. apply val_add; apply val_div; auto; lra. }
  assert (A : 0 <= os / ms) by (apply Qle_shift_div_l; lra). assert (B : 0 <= od / mw) by (apply Qle_shift_div_l; lra).
  assert (C : os / ms + od / mw <= 1).
  { assert (B' : od / mw <= od / ms). { apply Qle_shift_div_l; [lra|]. setoid_replace (od / mw * ms) with (od * (ms / mw)) by (field; lra).
      assert (ms / mw <= 1) by (apply Qle_shift_div_r; lra). nra. }
    destruct (Qlt_le_dec ms od) as [L|L].
    - assert (os == 0).
      { destruct (k_sh k) eqn:Sh; [|rewrite Es; apply S1; reflexivity]. destruct (k_hw k) eqn:Hw.
        - destruct (S3 eq_refl eq_refl eq_refl) as [_ T]. rewrite Es. apply T. rewrite <- (D1 eq_refl), <- Ed. lra.
        - exfalso. specialize (D2 eq_refl). lra. }
      rewrite H. assert (od / mw <= 1) by (apply Qle_shift_div_r; lra). setoid_replace (0 / ms) with 0 by (field; lra). lra.
    - assert (os + od <= ms).
      { destruct (k_sh k) eqn:Sh; [|assert (os == 0) by (rewrite Es; apply S1; reflexivity); lra]. destruct (k_hw k) eqn:Hw.
        - destruct (S3 eq_refl eq_refl eq_refl) as [T _]. destruct T as [_ T]; [rewrite <- (D1 eq_refl), <- Ed; lra|]. rewrite <- (D1 eq_refl), <- Es, <- Ed in T. lra.
        - specialize (D2 eq_refl). destruct (S2 eq_refl eq_refl eq_refl) as [_ T]. lra. }
      assert (os / ms + od / ms <= 1). { setoid_replace (os / ms + od / ms) with ((os + od) / ms) by (field; lra). apply Qle_shift_div_r; lra. }
      lra. }
  split; nra.
Qed.

(** Otherwise it may: with 4 kW for the space and 2 kW for water, a system of
    2 kW electric rating takes 3 kW. *)
Theorem C77_rating_refuted : exists m k q e fl, val (m_sh m) 4000 /\ val (m_dhw m) 2000 /\ val (m_flow m) fl /\ m_fuel m = "Electricity"%string /\
  val (fuel_of "Electricity" (Heated m k (system_step m k q))) e /\ fl * 1000 < e.
Proof.
  exists (HSystem (Some 4000) (Some 2000) (Some 20) (Some 0) (Some 2) (Some 2000) "Electricity" false cylinder0), (Controls true true true), (Demand (Some 5000) (Some 5000)).
  exists 3000, 2. assert (V : forall q, val (Some q) q) by (intro; apply val_some; reflexivity).
  split; [apply V|]. split; [apply V|]. split; [apply V|]. split; [reflexivity|]. split; [apply val_some; vm_compute; reflexivity|]. vm_compute. reflexivity.
Qed.

(** A heater without space heating: the demand is not a number although the
    outputs are. *)
Theorem C77_nan_refuted : exists h, val (m_sh (h_sys h)) 0 /\ val (m_dhw (h_sys h)) 2000 /\ val (o_dhw (h_out h)) 1000 /\ val (o_sh (h_out h)) 0 /\
  system_power [h] = Ok [None].
Proof.
  exists (Heated (HSystem (Some 0) (Some 2000) (Some 20) (Some 0) (Some 2) (Some 2000) "Electricity" false cylinder0) (Controls true true false) (Outputs (Some 1000) (Some 0) (Some 1000))).
  assert (V : forall q, val (Some q) q) by (intro; apply val_some; reflexivity).
  split; [apply V|]. split; [apply V|]. split; [apply V|]. split; [apply V|]. vm_compute. reflexivity.
Qed.

(** Energy of a gas boiler: 3600 times its power rating, where the rating is
    meant. The boiler of the data set at full output. *)
Theorem C77_energy_refuted : exists h e, val (m_toW (h_sys h)) 29000 /\ val (m_sh (h_sys h)) 21750 /\ val (m_dhw (h_sys h)) 21750 /\ val (o_sh (h_out h)) 21750 /\ val (o_dhw (h_out h)) 0 /\
  m_fuel (h_sys h) = "Mainsgas"%string /\ val (m_pump (h_sys h)) 20 /\ system_energy [h] = Ok [Some e] /\ e == 20 + 3600 * 29000.
Proof.
  exists (Heated (HSystem (Some 21750) (Some 21750) (Some 20) (Some 10) (Some (261 # 100)) (Some 29000) "Mainsgas" false cylinder0) (Controls true false true) (Outputs (Some 0) (Some 21750) (Some 21750))).
  eexists. assert (V : forall q, val (Some q) q) by (intro; apply val_some; reflexivity).
  split; [apply V|]. split; [apply V|]. split; [apply V|]. split; [apply V|]. split; [apply V|]. split; [reflexivity|]. split; [apply V|].
  split; [vm_compute; reflexivity|]. vm_compute. reflexivity.
Qed.

(** Only gas and electricity are known: one household with another fuel is an
    error for all of them. *)
Theorem C77_fuels : forall l, (known_fuels l -> exists v, system_power l = Ok v /\ length v = length l) /\
  (~ known_fuels l -> system_power l = Err ValueError).
Proof.
  intro l. split; intro H.
  - apply fuel_total in H. destruct H as [d H]. destruct (system_power l) as [v|] eqn:E.
    + exists v. split; [reflexivity|]. rewrite (system_power_eq _ _ E). apply map_length.
    + unfold system_power in E. rewrite H in E. discriminate.
  - unfold system_power. rewrite (fuel_err l H). reflexivity.
Qed.

Example C77_example :
  match system_power [Heated pump0 (Controls true true true) (Outputs (Some 2000) (Some 1600) (Some 3600)); Heated pump0 controls_off (Outputs (Some 0) (Some 0) (Some 0))] with
  | Ok v => map (option_map Qred) v | Err _ => [] end = [Some (282740 # 237); Some 0] /\
  system_power [Heated (HSystem (Some 1) (Some 1) (Some 20) (Some 0) (Some 2) (Some 2000) "Wood" false cylinder0) controls_off (Outputs (Some 0) (Some 0) (Some 0))] = Err ValueError.
Proof. conj_vm. Qed.

(** ** C78: no overheating, no undercooling *)

(** The whole simulator stepped by minutes for any time, under any mild weather:
    nothing gets warmer than the targets plus dead bands, the start and the
    surroundings, nor cooler than the start and the surroundings. *)
Theorem C78_closed_loop : forall p P g lo hi l x v, plant_is p P -> temps_are (x_temps x) v -> targets_are (x_targets x) g ->
  x_algo x = "heat_max_emmiters"%string -> pl_dt P == 60 -> within lo hi v -> t_water g + pl_bhw P <= hi -> t_emit g + pl_bem P <= hi ->
  (forall w, In w l -> exists d, weather_is w d /\ mild (pl_dt P) (pl_house P) lo hi d /\ v_out d <= hi) ->
  exists x' v', five_run p x (map internal l) = Ok x' /\ temps_are (x_temps x') v' /\ within lo hi v'.
Proof. exact five_run_within. Qed.

(** With another step size it overheats: one step of ten minutes. *)
Theorem C78_step_size_refuted : exists p x w x' h t, house_is (p_building p) (m_cyl (p_system p)) h /\ short_step 600 h 0 /\
  five_step p x (internal w) = Ok x' /\ val (T_em (x_temps x)) 54 /\ val (T_em (x_temps x')) t /\ 60 < t /\ val (g_em (x_targets x)) 50 /\ val (d_em (p_bands p)) 5.
Proof.
  exists (HPar (Some 600) bands0 building0 (HSystem (Some 21750) (Some 21750) (Some 20) (Some 10) (Some (261 # 100)) (Some 29000) "Mainsgas" false cylinder0)).
  exists (HState (Temps (Some 12) (Some 19) (Some 54) (Some 54) (Some 10)) targets0 (TStates false true true) controls_off
    (Demand (Some 0) (Some 0)) "heat_max_emmiters" (Outputs (Some 0) (Some 0) (Some 0)) false false (Some 0)).
  exists (winter 0). eexists. exists house0. eexists. assert (V : forall q, val (Some q) q) by (intro; apply val_some; reflexivity).
  split; [repeat split; apply V|]. split; [repeat split; simpl; lra|]. split; [vm_compute; reflexivity|]. split; [apply V|]. split; [apply V|].
  split; [vm_compute; reflexivity|]. split; apply V.
Qed.

Example C78_example :
  plant_is par0 (Plant house0 3600 5925 1 5 5 60) /\ mild 60 house0 0 75 (Drive 0 20 70 150 50 200 0 0) /\
  match five_run par0 start0 [internal (winter 0); internal (winter 1); internal (winter 0)] with
  | Ok x => nlt (Some 45) (T_cyl (x_temps x)) = true /\ x_controls x = Controls true true true
  | Err _ => False end.
Proof.
  assert (V : forall q, val (Some q) q) by (intro; apply val_some; reflexivity).
  split. { repeat split; try apply V; simpl; lra. } split; [repeat split; vm_compute; discriminate|]. vm_compute. repeat split.
Qed.

(** ** C79: the controls *)

(** Hot water is heated on demand by a combi boiler or for an external
    cylinder, else when its thermostat is on; space when the thermostats of room
    and emitters are on; the heater runs iff one of them needs it. *)
Theorem C79_controls : forall combi ext dhw s w, val dhw w ->
  let k := controls_step combi ext dhw s in
  (k_hw k = true <-> (if combi || ext then 0 < w else s_hw s = true)) /\
  (k_sh k = true <-> s_sh s = true /\ s_em s = true) /\
  (k_on k = true <-> k_hw k = true \/ k_sh k = true).
Proof.
  intros combi ext dhw s w Hw k. subst k. unfold controls_step. cbn [k_hw k_sh k_on].
  assert (Z : val (Some 0) 0) by (apply val_some; reflexivity). split; [|split].
  - destruct (combi || ext); [apply (nlt_val _ _ _ _ Z Hw)|reflexivity].
  - apply andb_true_iff.
  - apply orb_true_iff.
Qed.

(** The demand algorithms: an unknown one is an error, and estimating the room
    without outside temperature falls back to heating the emitters. *)
Theorem C79_algorithms : forall algo dt d b t g o,
  demand_space "room_estimation" dt d b t g None = Ok (demand_emitters dt d b t g, "heat_max_emmiters"%string) /\
  demand_space "heat_max_emmiters" dt d b t g o = Ok (demand_emitters dt d b t g, "heat_max_emmiters"%string) /\
  (algo <> "room_estimation" -> algo <> "heat_max_emmiters" -> demand_space algo dt d b t g o = Err ValueError)%string.
Proof.
  intros algo dt d b t g o. split; [reflexivity|]. split; [reflexivity|]. intros H1 H2. unfold demand_space.
  apply String.eqb_neq in H1, H2. rewrite H1, H2. reflexivity.
Qed.

(** The external cylinder is taken into account one step late: in the step it
    is given the internal thermostat still decides. *)
Theorem C79_external_cylinder_refuted : exists p x i x', i_cyl i = Some (Some 60) /\ val (w_dhw (i_gains i)) 50 /\ five_step p x i = Ok x' /\
  x_ext_cyl x' = true /\ k_hw (x_controls x') = false.
Proof.
  exists par0, start0, (HInput (winter 50) None NoHeat None None (Some (Some 60))). eexists.
  split; [reflexivity|]. split; [apply val_some; reflexivity|]. split; [vm_compute; reflexivity|]. split; reflexivity.
Qed.

Example C79_example :
  controls_step true false (Some 3) (TStates false true false) = Controls true true false /\
  controls_step false false (Some 3) (TStates false true true) = Controls true false true /\
  controls_step false true (Some 0) (TStates true true false) = Controls false false false.
Proof. conj_vm. Qed.

(** ** C108: initial temperatures *)

(** The room starts within a degree of its target, the walls halfway to the
    outside, the emitters at the temperature of the room where the target is
    reached and at their nominal one elsewhere, the cylinder between 50 and 52
    degrees, and the cold water at 10. *)
Theorem C108_ranges : forall outside target nominal u1 u2 o g n a b,
  val outside o -> val target g -> val nominal n -> val u1 a -> val u2 b -> -(1) <= a -> a < 1 -> 0 <= b -> b < 1 ->
  exists v, temps_are (initialize_temperatures outside target nominal u1 u2) v /\
    g - 1 <= t_i v /\ t_i v < g + 1 /\ t_b v - o == g - t_b v /\ 50 <= t_c v /\ t_c v < 52 /\ t_w v == 10 /\
    (g <= t_i v -> t_e v == t_i v) /\ (t_i v < g -> t_e v == n).
Proof. exact initial_ranges. Qed.

(** A fresh simulator, stepped by minutes under mild weather for any time, stays
    between the bounds of outside, cold water, set-points and the hottest of
    cylinder, emitters and targets. *)
Theorem C108_run : forall p P lo hi l o g n a b outside target nominal u1 u2 tg goal,
  plant_is p P -> pl_dt P == 60 ->
  val outside o -> val target g -> val nominal n -> val u1 a -> val u2 b -> -(1) <= a -> a < 1 -> 0 <= b -> b < 1 ->
  targets_are tg goal ->
  lo <= o -> lo <= 10 -> lo <= g - 1 -> lo <= n -> o <= hi -> g + 1 <= hi -> n <= hi -> 52 <= hi ->
  t_water goal + pl_bhw P <= hi -> t_emit goal + pl_bem P <= hi ->
  (forall w, In w l -> exists d, weather_is w d /\ mild (pl_dt P) (pl_house P) lo hi d /\ v_out d <= hi) ->
  exists x' v', five_run p (five_init "heat_max_emmiters" (initialize_temperatures outside target nominal u1 u2) tg) (map internal l) = Ok x' /\
    temps_are (x_temps x') v' /\ within lo hi v'.
Proof.
  intros p P lo hi l o g n a b outside target nominal u1 u2 tg goal HP Hdt Ho Hg Hn Ha Hb A1 A2 B1 B2 Htg L1 L2 L3 L4 U1 U2 U3 U4 U5 U6 Hl.
  destruct (initial_ranges _ _ _ _ _ _ _ _ _ _ Ho Hg Hn Ha Hb A1 A2 B1 B2) as (v & Hv & R1 & R2 & R3 & R4 & R5 & R6 & R7 & R8).
  apply (five_run_within p P goal lo hi l _ v); try assumption; [reflexivity|].
  destruct (Qlt_le_dec (t_i v) g) as [C|C]; [specialize (R8 C)|specialize (R7 C)]; unfold within, cooler, flat; cbn [t_b t_i t_e t_c t_w]; repeat split; lra.
Qed.

Example C108_example :
  initialize_temperatures (Some (-(4))) (Some 20) (Some 50) (Some (-(1 # 2))) (Some (1 # 4)) =
    Temps (Some (16 / 2)) (Some (20 + -(1 # 2))) (Some 50) (Some (50 + 2 * (1 # 4))) (Some 10) /\
  nlt (T_em (initialize_temperatures (Some (-(4))) (Some 20) (Some 50) (Some (1 # 2)) (Some (1 # 4)))) (Some 21) = true.
Proof. vm_compute. split; reflexivity. Qed.

(** ** C109: reported heat demands *)

(** Without external cylinder the demands reported after a step are those that
    bring water and emitters to their goals, where they are being heated, and
    zero where they are not; the total is their sum. *)
Theorem C109_reported : forall p x w P v g d, plant_is p P -> temps_are (x_temps x) v -> targets_are (x_targets x) g -> weather_is w d ->
  x_algo x = "heat_max_emmiters"%string -> x_ext_cyl x = false ->
  exists x' a b, five_step p x (internal w) = Ok x' /\ val (dhw_heat_demand x') a /\ val (sh_heat_demand x') b /\ val (total_heat_demand x') (a + b) /\
    let h := pl_house P in
    (k_hw (x_controls x') = false -> a == 0) /\ (k_sh (x_controls x') = false -> b == 0) /\
    (k_hw (x_controls x') = true -> 60 * a == cc h * (t_water g + pl_bhw P - t_c v) + 60 * (v_draw d * (t_c v - t_w v) + h_loss h * (t_c v - t_i v))) /\
    (k_sh (x_controls x') = true -> 60 * b == ce h * (t_emit g + pl_bem P - t_e v) + 60 * (h_em h * (t_e v - t_i v))).
Proof.
  intros p x w P v g d HP Ht Hg Hw Ha Hx.
  destruct (five_internal p x w P v g d HP Ht Hg Hw Ha) as (x' & q1 & q2 & od & os & v' & Hstep & _ & _ & Hc & _ & Hk & (Q1 & Q2) & D1 & D2 & _).
  rewrite Hx in Hc.
  assert (K : k_on (x_controls x') = k_hw (x_controls x') || k_sh (x_controls x')) by (rewrite Hk; reflexivity).
  destruct (reported_total x' q1 q2) as (a & b & A & B & C & Z1 & Z2 & N1 & N2); try assumption.
  { unfold raw_dhw. now rewrite Hc. }
  exists x', a, b. repeat (split; [assumption|]). split; intro H.
  - rewrite (N1 H), Q1. field.
  - rewrite (N2 H), Q2. field.
Qed.

(** With an external cylinder the demand for hot water is the heat for the water
    drawn, up to the target, and for the losses of the cylinder to the room; it
    is zero without hot water control. *)
Theorem C109_external : forall p x i x' tc P v gw dw, five_step p x i = Ok x' -> i_cyl i = Some (Some tc) ->
  plant_is p P -> temps_are (x_temps x') v -> val (g_dhw (x_targets x')) gw -> val (w_dhw (i_gains i)) dw ->
  exists a, val (dhw_heat_demand x') a /\ (k_hw (x_controls x') = false -> a == 0) /\
    (k_hw (x_controls x') = true -> a == dw * (gw - t_w v) + h_loss (pl_house P) * (t_c v - t_i v)).
Proof. exact external_reported. Qed.

(** The total is the sum of both demands for every state that steps reach, and
    nan as soon as one of them is. *)
Theorem C109_total : forall p x i x', five_step p x i = Ok x' ->
  (forall a b, val (dhw_heat_demand x') a -> val (sh_heat_demand x') b -> val (total_heat_demand x') (a + b)) /\
  (nan (dhw_heat_demand x') \/ nan (sh_heat_demand x') -> nan (total_heat_demand x')).
Proof. exact total_reported. Qed.

(** The heat for an external cylinder is computed only in the steps that name
    its temperature: in a later step without it the demand is still the former
    one, although less water is drawn then. *)
Theorem C109_stale_refuted : exists p x i1 i2 x1 x2 a, i_cyl i1 = Some (Some 40) /\ i_cyl i2 = None /\
  val (w_dhw (i_gains i1)) 50 /\ val (w_dhw (i_gains i2)) 10 /\
  five_step p x i1 = Ok x1 /\ five_step p x1 i2 = Ok x2 /\ x_ext_cyl x2 = true /\ val (dhw_heat_demand x1) a /\ val (dhw_heat_demand x2) a /\ 2000 < a.
Proof.
  exists par0, start0, (HInput (winter 50) None NoHeat None None (Some (Some 40))), (HInput (winter 10) None NoHeat None None None).
  do 3 eexists. assert (V : forall q, val (Some q) q) by (intro; apply val_some; reflexivity).
  split; [reflexivity|]. split; [reflexivity|]. split; [apply V|]. split; [apply V|]. split; [vm_compute; reflexivity|].
  split; [vm_compute; reflexivity|]. split; [reflexivity|]. split; [apply V|]. split; [apply val_some; vm_compute; reflexivity|].
  vm_compute. reflexivity.
Qed.

Example C109_example :
  match five_step par0 start0 (HInput (winter 50) None NoHeat None None (Some (Some 40))) with
  | Ok x => option_map Qred (dhw_heat_demand x) = option_map Qred (x_cyl_dhw x) /\ x_ext_cyl x = true /\ nlt (Some 0) (total_heat_demand x) = true /\
            k_on (x_controls x) = true
  | Err _ => False end.
Proof. vm_compute. repeat split. Qed.

Print Assumptions C45_step.
Print Assumptions C45_within_band.
Print Assumptions C45_switching.
Print Assumptions C45_new_targets.
Print Assumptions C45_initial.
Print Assumptions C46_limits.
Print Assumptions C46_priority.
Print Assumptions C47_conserved.
Print Assumptions C47_priority.
Print Assumptions C47_delivered.
Print Assumptions C48_hot_water.
Print Assumptions C48_emitters.
Print Assumptions C48_room.
Print Assumptions C48_room_refuted.
Print Assumptions C48_closed_loop.
Print Assumptions C48_step_size_refuted.
Print Assumptions C49_flows.
Print Assumptions C49_energy.
Print Assumptions C49_comparison.
Print Assumptions C49_range.
Print Assumptions C49_coarse_step_refuted.
Print Assumptions C75_absent_partial.
Print Assumptions C75_heat_array_refuted.
Print Assumptions C75_target_refuted.
Print Assumptions C76_total_partial.
Print Assumptions C76_total_refuted.
Print Assumptions C76_external.
Print Assumptions C77_power.
Print Assumptions C77_rating_partial.
Print Assumptions C77_rating_refuted.
Print Assumptions C77_nan_refuted.
Print Assumptions C77_energy_refuted.
Print Assumptions C77_fuels.
Print Assumptions C78_closed_loop.
Print Assumptions C78_step_size_refuted.
Print Assumptions C79_controls.
Print Assumptions C79_algorithms.
Print Assumptions C79_external_cylinder_refuted.
Print Assumptions C108_ranges.
Print Assumptions C108_run.
Print Assumptions C109_reported.
Print Assumptions C109_external.
Print Assumptions C109_total.
Print Assumptions C109_stale_refuted.
