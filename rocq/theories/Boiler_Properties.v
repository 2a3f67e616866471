(** * C203, C204: the older heating controls and heating system. *)

From Coq Require Import String List ZArith QArith Qfield Bool Arith Lia Lqa.
From Coq Require Import ZifyBool ZifyNat.
From Verif Require Import Prelude PreludeFacts SpecBase SpecBaseFacts Sampling_Model Appliance_Model Matrix_Proofs Light_Spec Light_Proofs.
From Verif Require Import Heat_Model Heat_Spec Heat_Proofs Boiler_Model Boiler_Spec Boiler_Proofs.
Import ListNotations.

Open Scope Q_scope.
Ltac Zify.zify_post_hook ::= Z.div_mod_to_equations.

(** ** C203: controls *)

(** Started at a full or a half hour, the timers are redrawn once every half hour, each one at
    its own minute: after n minutes a dwelling with delay [d] has had one draw for every half
    hour whose minute d + 15 is over.  Nothing else of a dwelling changes, and no update fails. *)
Theorem C203_timers : forall c t0 u n, two_states (x_tables c) -> (forall h, In h (x_houses c) -> proper h) -> on_half_hour t0 -> x_seen c = 0%nat ->
  exists c', minutes c t0 u n = Ok c' /\ x_tables c' = x_tables c /\ List.length (x_houses c') = List.length (x_houses c) /\
  forall i h, at_ (x_houses c) i h -> exists h', at_ (x_houses c') i h' /\ same_settings h h' /\
    (0 < n -> w_hwtimer h' = true)%nat /\
    let d := Z.to_nat (w_delay h + 15) in
    timer_path (x_tables c) (fun k => u k i) d (w_timer h) ((n + 29 - d) / 30) (w_timer h').
Proof.
  intros c t0 u n HT HP H0 Hs. destruct (minutes_reached c t0 u n HT HP H0 Hs) as (c' & E & R1 & R2 & R3 & R4 & R5 & R6).
  exists c'. split; [exact E|]. split; [exact R1|]. split; [exact R2|]. intros i h Hi. destruct (R6 i h Hi) as (h' & A1 & A2 & A3 & A4).
  exists h'. split; [exact A1|]. split; [exact A2|]. split.
  { intro P. rewrite A3. destruct n; [lia|]. apply orb_true_r. }
  destruct (HP h (at_in _ _ _ _ Hi)) as [_ Hd]. intro d. fold d in A4.
  replace ((n + 29 - d) / 30)%nat with (if (d <? n mod 30)%nat then S (n / 30) else n / 30)%nat; [exact A4|].
  assert (Hd' : (d < 30)%nat) by (unfold d; lia). clear - Hd'. clearbody d. destruct (Nat.ltb_spec d (n mod 30)); lia.
Qed.
Print Assumptions C203_timers.

Definition ex_off : list (list Q) := [[1; 1]; [1; 1]].
Definition ex_on : list (list Q) := [[0; 1]; [0; 1]].
Definition ex_dwelling (d : Z) (home : option Q) (combi : bool) : dwelling :=
  Dwelling d 0 false home 60 50 combi (TStates true true true).
(** Two dwellings, delays -15 and 3: after 20 minutes both have moved. *)
Example C203_timers_ex :
  (exists c', minutes (Ctl [ex_on; ex_off] 0 None [ex_dwelling (-15) (Some 20) false; ex_dwelling 3 (Some 20) false]) 36000000000 (fun _ _ => 1 # 2) 18 = Ok c' /\
     map w_timer (x_houses c') = [1; 0]%nat) /\
  (exists c', minutes (Ctl [ex_on; ex_off] 0 None [ex_dwelling (-15) (Some 20) false; ex_dwelling 3 (Some 20) false]) 36000000000 (fun _ _ => 1 # 2) 20 = Ok c' /\
     map w_timer (x_houses c') = [1; 1]%nat) /\
  (exists c', minutes (Ctl [ex_on; ex_off] 0 None [ex_dwelling (-15) (Some 20) false; ex_dwelling 3 (Some 20) false]) 36000000000 (fun _ _ => 1 # 2) 31 = Ok c' /\
     map w_timer (x_houses c') = [0; 1]%nat).
Proof. split; [|split]; eexists; (split; [vm_compute; reflexivity|reflexivity]). Qed.

(** A simulation that starts at any other minute fails in the first update: the table of the
    half hour does not exist yet. *)
Theorem C203_other_starts : forall wd we iso houses t0 u, ~ on_half_hour t0 ->
  update_controls (new_ctl wd we iso houses) t0 u = Err AttributeError.
Proof.
  intros wd we iso houses t0 u H. unfold update_controls, new_ctl. cbn [x_tables x_seen x_cur x_houses].
  destruct (Z.eqb_spec (minute_of t0 mod 30) 0) as [E|E]; [|reflexivity]. exfalso. apply H.
  exists (t0 / 1800000000)%Z, (t0 mod 1800000000)%Z. unfold minute_of in E. lia.
Qed.
Print Assumptions C203_other_starts.

(** "The updates of a simulation with good tables and dwellings never fail" is false. *)
Theorem C203_any_start_refuted : exists wd we iso houses t0 u, two_states wd /\ two_states we /\ (forall h, In h houses -> proper h) /\
  update_controls (new_ctl wd we iso houses) t0 u = Err AttributeError.
Proof.
  assert (T : two_states [ex_on]).
  { split; [discriminate|]. intros t [<-|[]]. split; [reflexivity|]. intros r [<-|[<-|[]]]; reflexivity. }
  exists [ex_on], [ex_on], 1%Z, [ex_dwelling 0 None true], 60000000%Z, (fun _ => 0).
  split; [exact T|]. split; [exact T|]. split; [intros h [<-|[]]; split; simpl; lia|]. vm_compute. reflexivity.
Qed.
Print Assumptions C203_any_start_refuted.

(** The table in use is the one of the half hours since the start, not of the hour of the day:
    a simulation that starts at noon uses the table of midnight. *)
Theorem C203_by_the_clock_refuted : exists c t0 u c' h, two_states (x_tables c) /\ List.length (x_tables c) = 48%nat /\ x_seen c = 0%nat /\
  on_half_hour t0 /\ (t0 mod 86400000000 = 12 * 3600000000)%Z /\ minutes c t0 u 30 = Ok c' /\ at_ (x_houses c') 0 h /\
  w_timer h = 0%nat /\ at_ (x_tables c) 24 [[0; 1]; [0; 1]] /\ picks [0; 1] (u 15%nat 0%nat) 1.
Proof.
  exists (Ctl (repeat ex_off 24 ++ repeat ex_on 24) 0 None [ex_dwelling 0 (Some 20) false]), 43200000000%Z, (fun _ _ => 1 # 2).
  eexists. eexists. split.
  { split; [discriminate|]. intros t Ht. apply in_app_or in Ht.
    destruct Ht as [Ht|Ht]; apply repeat_spec in Ht; subst; (split; [reflexivity|]); intros r [<-|[<-|[]]]; reflexivity. }
  split; [reflexivity|]. split; [reflexivity|]. split; [exists 24%Z, 0%Z; lia|]. split; [reflexivity|].
  split; [vm_compute; reflexivity|]. split; [reflexivity|]. split; [reflexivity|]. split; [reflexivity|].
  left. exists 1. split; [reflexivity|]. split; [reflexivity|]. intros [|k] c' Hk Hc; [injection Hc as <-; discriminate|lia].
Qed.
Print Assumptions C203_by_the_clock_refuted.

(** The timers at the start: on for draws between p and 1 - p. *)
Theorem C203_initial_timer : forall iso u, let p := if Z.leb iso 5 then 9 # 100 else 10 # 100 in
  exists k, initial_timer iso u = Ok k /\ (k = 1%nat <-> p <= u /\ u < 1 - p) /\ (k = 0%nat <-> u < p \/ 1 - p <= u).
Proof.
  intros iso u p. unfold initial_timer. fold p. assert (Hp : 0 < p /\ p < 1 # 2) by (unfold p; destruct (Z.leb iso 5); lra). clearbody p.
  unfold mc_one, argmax_bool. cbn [map]. destruct (Qltb u p) eqn:E1; cbn.
  - apply Qltb_lt in E1. exists 0%nat. split; [reflexivity|]. split; split; try discriminate; try lra; intros; auto; lra.
  - assert (H1 : p <= u) by (apply Qnot_lt_le; intro K; apply Qltb_lt in K; congruence).
    destruct (Qltb u (1 - p)) eqn:E2; cbn.
    + apply Qltb_lt in E2. exists 1%nat. split; [reflexivity|]. split; split; try discriminate; auto; intros; lra.
    + assert (H2 : 1 - p <= u) by (apply Qnot_lt_le; intro K; apply Qltb_lt in K; congruence).
      exists 0%nat. split; [reflexivity|]. split; split; try discriminate; auto; intros; lra.
Qed.
Print Assumptions C203_initial_timer.

(** "On a working day a share of 9 % of the timers starts switched on": the draws which switch
    it on are an interval of length 82 %. *)
Theorem C203_initial_share_refuted : exists iso lo hi, (1 <= iso <= 5)%Z /\ hi - lo == 82 # 100 /\
  forall u, 0 <= u < 1 -> (initial_timer iso u = Ok 1%nat <-> lo <= u < hi).
Proof.
  exists 1%Z, (9 # 100), (91 # 100). split; [lia|]. split; [reflexivity|]. intros u _.
  destruct (C203_initial_timer 1 u) as (k & E & K1 & K0). change (if (1 <=? 5)%Z then 9 # 100 else 10 # 100) with (9 # 100) in K1. rewrite E. clear E K0. split.
  - intros [= ->]. destruct K1 as [K1 _]. specialize (K1 eq_refl). lra.
  - intros Hu. f_equal. apply K1. lra.
Qed.
Print Assumptions C203_initial_share_refuted.

(** Weekdays use the tables of working days, Saturday and Sunday those of weekends. *)
Theorem C203_day_tables : forall wd we iso houses t0 u n, two_states wd -> two_states we -> (forall h, In h houses -> proper h) -> on_half_hour t0 ->
  exists c', minutes (new_ctl wd we iso houses) t0 u n = Ok c' /\
  forall i h, at_ houses i h -> exists h', at_ (x_houses c') i h' /\
    let d := Z.to_nat (w_delay h + 15) in
    (In iso [1; 2; 3; 4; 5]%Z -> timer_path wd (fun k => u k i) d (w_timer h) ((n + 29 - d) / 30) (w_timer h')) /\
    (In iso [6; 7]%Z -> timer_path we (fun k => u k i) d (w_timer h) ((n + 29 - d) / 30) (w_timer h')).
Proof.
  intros wd we iso houses t0 u n H1 H2 HP H0.
  destruct (C203_timers (new_ctl wd we iso houses) t0 u n) as (c' & E & _ & _ & K); [unfold new_ctl; cbn [x_tables]; destruct (Z.leb iso 5); assumption|exact HP|exact H0|reflexivity|].
  exists c'. split; [exact E|]. intros i h Hi. destruct (K i h Hi) as (h' & A1 & _ & _ & A2). exists h'. split; [exact A1|]. intro d. fold d in A2. unfold new_ctl in A2. cbn [x_tables] in A2. split; intro Hd.
  - replace (Z.leb iso 5) with true in A2; [exact A2|]. simpl in Hd. symmetry. apply Z.leb_le. lia.
  - replace (Z.leb iso 5) with false in A2; [exact A2|]. simpl in Hd. symmetry. apply Z.leb_gt. lia.
Qed.
Print Assumptions C203_day_tables.
Example C203_day_tables_ex : map (fun iso => match minutes (new_ctl [ex_on] [ex_off] iso [ex_dwelling 0 (Some 20) false]) 0 (fun _ _ => 1 # 2) 20 with Ok c => map w_timer (x_houses c) | Err _ => [] end) [1; 5; 6; 7]%Z
  = [[1]; [1]; [0]; [0]]%nat.
Proof. vm_compute. reflexivity. Qed.

(** The thermostats at the start: on below their set points, never for rooms without heating. *)
Theorem C203_initial_states : forall home water emit cyl room em, let s := initial_states home water emit cyl room em in
  (s_hw s = true <-> cyl < water) /\ (s_em s = true <-> em < emit) /\
  (forall x, home = Some x -> (s_sh s = true <-> room < x)) /\ (home = None -> s_sh s = false).
Proof.
  intros home water emit cyl room em s. unfold s, initial_states. cbn [s_hw s_em s_sh]. rewrite !Qltb_lt. split; [reflexivity|]. split; [reflexivity|].
  split; [intros x ->; cbn [below]; apply Qltb_lt|intros ->; reflexivity].
Qed.
Print Assumptions C203_initial_states.
Example C203_initial_states_ex : initial_states None 60 50 59 5 50 = TStates true false false.
Proof. reflexivity. Qed.

(** What a dwelling answers: the three thermostats follow the hysteresis, hot water is heated for
    a combi boiler when some is drawn and otherwise by timer and thermostat, rooms by timer and
    both thermostats, and the heater is on for either. *)
Theorem C203_controls : forall h a h' k, answer h a = (h', k) ->
  band_rule (s_hw (w_states h)) (a_cyl a) (w_water h) 5 (s_hw (w_states h')) /\
  (forall x, w_home h = Some x -> band_rule (s_sh (w_states h)) (a_room a) x 2 (s_sh (w_states h'))) /\
  band_rule (s_em (w_states h)) (a_em a) (w_emit h) 5 (s_em (w_states h')) /\
  (k_hw k = true <-> if w_combi h then 0 < a_demand a else w_hwtimer h = true /\ s_hw (w_states h') = true) /\
  (k_sh k = true <-> w_timer h <> 0%nat /\ s_sh (w_states h') = true /\ s_em (w_states h') = true) /\
  (k_on k = true <-> k_hw k = true \/ k_sh k = true) /\
  w_timer h' = w_timer h.
Proof.
  intros h a h' k H. unfold answer, calculate_controls in H. injection H as <- <-. cbn [w_states s_hw s_sh s_em k_hw k_sh k_on w_timer].
  split; [apply old_thermostat_band|]. split; [intros x ->; apply old_thermostat_band|]. split; [apply old_thermostat_band|].
  split. { destruct (w_combi h); [apply Qltb_lt|apply andb_true_iff]. }
  split. { rewrite !andb_true_iff, negb_true_iff, Nat.eqb_neq. tauto. }
  split; [apply orb_true_iff|reflexivity].
Qed.
Print Assumptions C203_controls.

Example C203_controls_ex :
  snd (answer (Dwelling 0 1 true (Some 20) 60 50 false (TStates true false true)) (Ask 64 18 54 0)) = Controls true true true /\
  snd (answer (Dwelling 0 1 true (Some 20) 60 50 false (TStates true false true)) (Ask 65 19 54 0)) = Controls false false false /\
  snd (answer (Dwelling 0 1 true (Some 20) 60 50 true (TStates true false true)) (Ask 64 19 54 3)) = Controls true true false.
Proof. vm_compute. repeat split. Qed.

(** A dwelling without heating system is never heated, whatever happens to it. *)
Theorem C203_no_system : forall l h h' a, w_home h = None -> life h l = Ok h' -> k_sh (snd (answer h' a)) = false.
Proof.
  intros l h h' a H0 H. destruct (life_ok _ _ _ H) as (_ & H2 & _). unfold answer, calculate_controls. cbn [snd k_sh].
  rewrite H2, H0. cbn [s_sh s_em]. rewrite old_thermostat_none. rewrite andb_false_r. reflexivity.
Qed.
Print Assumptions C203_no_system.

(** The set points, the delay and the kind of boiler are kept. *)
Theorem C203_settings_kept : forall l h h', life h l = Ok h' ->
  w_delay h' = w_delay h /\ w_home h' = w_home h /\ w_water h' = w_water h /\ w_emit h' = w_emit h /\ w_combi h' = w_combi h.
Proof. exact life_ok. Qed.
Print Assumptions C203_settings_kept.

Example C203_life_ex : exists h', life (ex_dwelling 3 None false) [Updated ex_on 3 (1 # 2); Asked (Ask 40 5 20 0)] = Ok h' /\
  w_timer h' = 1%nat /\ k_hw (snd (answer h' (Ask 40 5 20 0))) = true /\ k_sh (snd (answer h' (Ask 40 5 20 0))) = false.
Proof. eexists. split; [vm_compute; reflexivity|]. vm_compute. repeat split. Qed.

(** Set points assigned: the entries of the lists at the places drawn, none for the rooms of a
    dwelling without heating system. *)
Theorem C203_set_points : forall hc hv wc wv has uh uw, hc <> [] -> wc <> [] -> List.length hv = List.length hc -> List.length wv = List.length wc ->
  exists i j x y, picks hc uh i /\ picks wc uw j /\ at_ hv i x /\ at_ wv j y /\
    assign_setpoints hc hv wc wv has uh uw = Ok (if has then Some x else None, y).
Proof.
  intros hc hv wc wv has uh uw N1 N2 L1 L2.
  destruct (mc_one_total hc uh N1) as (i & Ei & Hi). destruct (mc_one_total wc uw N2) as (j & Ej & Hj).
  destruct (lt_at _ hv i ltac:(lia)) as [x Hx]. destruct (lt_at _ wv j ltac:(lia)) as [y Hy].
  exists i, j, x, y. split; [now apply mc_one_picks|]. split; [now apply mc_one_picks|]. split; [exact Hx|]. split; [exact Hy|].
  unfold assign_setpoints. rewrite Ei. cbn [bind]. apply vget_ok in Hx, Hy. rewrite Hx. cbn [bind]. rewrite Ej. cbn [bind]. rewrite Hy. reflexivity.
Qed.
Print Assumptions C203_set_points.

Example C203_set_points_ex : assign_setpoints [1 # 4; 1] [18; 21] [1] [55] true (1 # 2) 0 = Ok (Some 21, 55) /\
  assign_setpoints [1 # 4; 1] [18; 21] [1] [55] false (1 # 2) 0 = Ok (None, 55).
Proof. vm_compute. split; reflexivity. Qed.

(** New set points must be as many as the dwellings; then they replace the old ones, and only
    them. *)
Theorem C203_change_set_points : forall hs new,
  (List.length new <> List.length hs -> change_setpoints hs new = Err AssertionError) /\
  (List.length new = List.length hs -> exists hs', change_setpoints hs new = Ok hs' /\ List.length hs' = List.length hs /\
     forall i h x, at_ hs i h -> at_ new i x -> at_ hs' i (Dwelling (w_delay h) (w_timer h) (w_hwtimer h) (Some x) (w_water h) (w_emit h) (w_combi h) (w_states h))).
Proof.
  intros hs new. unfold change_setpoints. split; intro H.
  - apply Nat.eqb_neq in H. rewrite H. reflexivity.
  - rewrite H, Nat.eqb_refl. cbn [negb]. eexists. split; [reflexivity|]. revert new H. induction hs as [|h hs IH]; intros [|x new] H; try discriminate.
    + split; [reflexivity|]. intros [|i]; discriminate.
    + injection H as H. destruct (IH new H) as [L K]. split; [simpl; now rewrite L|].
      intros [|i] h0 x0 Hh Hx; [injection Hh as <-; injection Hx as <-; reflexivity|]. exact (K i h0 x0 Hh Hx).
Qed.
Print Assumptions C203_change_set_points.

Example C203_change_set_points_ex :
  (exists hs, change_setpoints [ex_dwelling 3 None false; ex_dwelling 1 (Some 20) true] [19; 22] = Ok hs /\ map w_home hs = [Some 19; Some 22]) /\
  change_setpoints [ex_dwelling 3 None false] [19; 22] = Err AssertionError.
Proof. split; [eexists; split; reflexivity|reflexivity]. Qed.

(** ** C204: heating system *)

(** The heat: never negative, together at most the rated output; off means none; water comes
    first and the rooms get what they ask from the rest. *)
Theorem C204_heat : forall heat k tw ts H x y, val heat H -> 0 <= H -> val tw x -> val ts y ->
  k_on k = (k_hw k || k_sh k) ->
  exists w s, val (o_dhw (old_output heat k tw ts)) w /\ val (o_sh (old_output heat k tw ts)) s /\
    val (o_total (old_output heat k tw ts)) (s + w) /\ 0 <= w /\ 0 <= s /\ s + w <= H /\
    (k_hw k = false -> w == 0) /\ (k_sh k = false -> s == 0) /\
    (k_hw k = true -> limited x H w) /\ (k_sh k = true -> limited y (H - w) s).
Proof.
  intros heat k tw ts H x y Hh P Hx Hy Hk.
  destruct (old_output_val heat k tw ts H x y Hh P Hx Hy) as (w & s & A1 & A2 & A3 & A4 & A5 & A6 & A7 & A8 & A9 & A10 & A11 & A12).
  exists w, s. repeat (split; [first [assumption]|]).
  split; [intro E; destruct (k_hw k) eqn:Ew; rewrite E in Hk; simpl in Hk; [apply A11; auto|apply A7; exact Hk]|].
  split; [intro E; rewrite E in Hk; apply A9; assumption|].
  intro E. rewrite E, orb_true_r in Hk. destruct (k_hw k) eqn:Ew; [apply A10; auto|].
  specialize (A12 Hk eq_refl). specialize (A8 eq_refl). destruct A12 as (B1 & B2 & B3). unfold limited.
  split; [exact B1|]. split; [intros; apply B2; lra|]. intros. rewrite (B3 ltac:(lra) ltac:(lra)). lra.
Qed.
Print Assumptions C204_heat.

(** The controls given by the older control simulator fulfil the condition. *)
Theorem C204_heat_applies : forall h a, let k := snd (answer h a) in k_on k = (k_hw k || k_sh k).
Proof. reflexivity. Qed.
Print Assumptions C204_heat_applies.

Example C204_heat_ex : old_output (Some 10) (Controls true true true) (Some 7) (Some 5) = Outputs (Some 7) (Some 3) (Some 10) /\
  old_output (Some 10) (Controls true true false) (Some 17) (Some 5) = Outputs (Some 10) (Some 0) (Some 10) /\
  old_output (Some 10) (Controls true false true) (Some 7) (Some 5) = Outputs (Some 0) (Some 5) (Some 5).
Proof. vm_compute. repeat split. Qed.

(** "Rooms are heated only if the control says so" fails for a control that switches the heater
    on for neither of the two. *)
Theorem C204_neither_refuted : exists heat k tw ts, k_hw k = false /\ k_sh k = false /\ val (o_sh (old_output heat k tw ts)) 5.
Proof. exists (Some 10), (Controls true false false), (Some 7), (Some 5). split; [reflexivity|]. split; [reflexivity|]. eexists. split; [vm_compute; reflexivity|reflexivity]. Qed.
Print Assumptions C204_neither_refuted.

(** One minute of the heating system: the heat is the one of the targets, the temperatures
    move by the heat flows, the stored heat changes by what comes in and goes out; a cylinder
    whose need is within the rated output gets to its set point, emitters whose need fits in
    the rest to 5 degrees above the nominal temperature. *)
Theorem C204_minute : forall dt b c t set nominal w heat k q h v d g n H, val dt q -> 0 < q -> house_is b c h -> house_ok h -> temps_are t v ->
  weather_is w d -> val set g -> val nominal n -> val heat H -> 0 <= H -> k_on k = (k_hw k || k_sh k) ->
  let need_w := cc h / q * (g - t_c v) + v_draw d * (t_c v - t_w v) + h_loss h * (t_c v - t_i v) in
  let need_s := ce h / q * (n + 5 - t_e v) + h_em h * (t_e v - t_i v) in
  let o := old_output heat k (old_target_water dt c t set (w_dhw w)) (old_target_space dt b nominal t) in
  exists ow os v', val (o_dhw o) ow /\ val (o_sh o) os /\ 0 <= ow /\ 0 <= os /\ ow + os <= H /\
    temps_are (old_update dt b c t w o) v' /\ heat_flows q h (with_heat d ow os) v v' /\
    stored h v' - stored h v == q * (ow + os + free_heat h d - h_ob h * (t_b v - v_out d) - h_v h * (t_i v - v_out d) - v_draw d * (t_c v - t_w v)) /\
    (k_hw k = true -> 0 <= need_w <= H -> t_c v' == g) /\
    (k_hw k = true -> H <= need_w -> t_c v' <= g) /\
    (k_sh k = true -> 0 <= need_s <= H - ow -> t_e v' == n + 5) /\
    (k_sh k = true -> 0 <= need_s -> t_e v' <= n + 5).
Proof.
  intros dt b c t set nominal w heat k q h v d g n H Hq Pq Hb Hh Ht Hw Hg Hn HH PH Hk need_w need_s o.
  pose proof Hb as (B1 & B2 & B3 & B4 & B5 & B6 & B7 & B8 & B9 & B10). pose proof Hw as (W1 & W2 & W3 & W4 & W5 & W6).
  pose proof (old_water_val dt c t set (w_dhw w) q _ _ v _ g Hq Pq B4 B9 Ht Hg W3) as V1. fold need_w in V1.
  pose proof (old_space_val dt b nominal t q _ _ v n Hq Pq B3 B8 Ht Hn) as V2. fold need_s in V2.
  destruct (C204_heat heat k _ _ H need_w need_s HH PH V1 V2 Hk) as (ow & os & A1 & A2 & A3 & A4 & A5 & A6 & A7 & A8 & A9 & A10). fold o in A1, A2, A3.
  assert (D : drive_is w o (with_heat d ow os)) by (unfold drive_is, with_heat; simpl; tauto).
  destruct (building_flows dt b c t w o h (with_heat d ow os) v q Hq Hb Hh Ht D) as (v' & T' & F).
  exists ow, os, v'. split; [exact A1|]. split; [exact A2|]. split; [exact A4|]. split; [exact A5|]. split; [lra|]. split; [exact T'|]. split; [exact F|].
  destruct (cylinder_reach q h (with_heat d ow os) v v' g Pq Hh F) as (R1 & R2 & _).
  destruct (emitter_reach q h (with_heat d ow os) v v' (n + 5) Pq Hh F) as (R3 & R4 & _).
  cbn [with_heat v_dhw v_sh v_draw] in R1, R2, R3, R4. fold need_w in R1, R2. fold need_s in R3, R4.
  split. { destruct F as (F1 & F2 & F3 & F4 & F5). cbn [with_heat v_dhw v_sh v_draw v_out] in F1, F2, F3, F4.
    change (free_heat h (with_heat d ow os)) with (free_heat h d) in F2. unfold stored. lra. }
  split. { intros E Hr. apply R1. apply (proj1 (proj2 (A9 E))). exact Hr. }
  split. { intros E Hr. apply R2. destruct (A9 E) as (L1 & L2 & L3). rewrite L3; lra. }
  split. { intros E Hr. apply R3. apply (proj1 (proj2 (A10 E))). exact Hr. }
  intros E Hr. apply R4. destruct (A10 E) as (L1 & L2 & L3). destruct (Qlt_le_dec need_s (H - ow)) as [L|L]; [rewrite L2; lra|rewrite L3; lra].
Qed.
Print Assumptions C204_minute.

Definition ex_building : building := Building (Some 60000) (Some 60000) (Some 60000) (Some 0) (Some 0) (Some 0) (Some 0) (Some 0).
Definition ex_cylinder : cylinder := Cylinder (Some 6000) (Some 0).
Definition ex_weather : gains := Gains (Some 5) (Some 0) (Some 0) (Some 0) (Some 0) (Some 0).
Example C204_minute_ex :
  let t := Temps (Some 15) (Some 18) (Some 40) (Some 55) (Some 10) in
  let o := old_output (Some 15500) (Controls true true true) (old_target_water (Some 60) ex_cylinder t (Some 60) (Some 0)) (old_target_space (Some 60) ex_building (Some 50) t) in
  option_map Qred (T_cyl (old_update (Some 60) ex_building ex_cylinder t ex_weather o)) = Some 60 /\
  option_map Qred (T_em (old_update (Some 60) ex_building ex_cylinder t ex_weather o)) = Some 55.
Proof. vm_compute. split; reflexivity. Qed.

(** The cylinder is heated up to the set point only, but its thermostat switches off 5 degrees
    above: once it is on, it stays on in every minute in which the room and the cold water are
    colder than that. *)
Inductive heated (dt : option Q) (q : Q) (b : building) (c : cylinder) (h : house) (heat nominal : option Q) (set : Q) : dwelling -> temps -> temp5 -> nat -> Prop :=
| heated_start : forall w t v, w_water w = set -> s_hw (w_states w) = true -> temps_are t v -> t_c v < set + 5 -> heated dt q b c h heat nominal set w t v 0
| heated_next : forall w t v n a w' k v' x d, heated dt q b c h heat nominal set w t v n ->
    t_i v < set + 5 -> t_w v < set + 5 -> T_cyl t = Some (a_cyl a) -> answer w a = (w', k) ->
    weather_is x d -> short_step q h (v_draw d) ->
    let t' := old_update dt b c t x (old_output heat k (old_target_water dt c t (Some set) (w_dhw x)) (old_target_space dt b nominal t)) in
    temps_are t' v' -> heated dt q b c h heat nominal set w' t' v' (S n).
Theorem C204_never_off : forall dt q b c h heat nominal set H N w t v n, val dt q -> 0 < q -> house_is b c h -> house_ok h -> val heat H -> 0 <= H -> val nominal N ->
  heated dt q b c h heat nominal set w t v n -> s_hw (w_states w) = true /\ t_c v < set + 5.
Proof.
  intros dt q b c h heat nominal set H N w t v n Hq Pq Hb Hh HH PH HN R.
  assert (G : w_water w = set /\ s_hw (w_states w) = true /\ temps_are t v /\ t_c v < set + 5); [|tauto].
  induction R as [w t v E S T L|w t v n a w' k v' x d R (IW & IS & IT & IL) Hi Hc Ea Ek Hx Hs t' Ht']; [tauto|].
  destruct (C203_controls w a w' k Ek) as (K1 & _ & _ & _ & _ & _ & _).
  assert (W : w_water w' = set). { unfold answer, calculate_controls in Ek. injection Ek as <- <-. exact IW. }
  split; [exact W|]. split.
  { apply K1. left. split; [exact IS|]. rewrite IW. destruct IT as (_ & _ & _ & (z & Ez & Fz) & _). rewrite Ea in Ez. injection Ez as ->. lra. }
  split; [exact Ht'|].
  assert (Hk : k_on k = (k_hw k || k_sh k)). { pose proof (C204_heat_applies w a) as A. rewrite Ek in A. exact A. }
  destruct (C204_minute dt b c t (Some set) nominal x heat k q h v d set N H Hq Pq Hb Hh IT Hx (val_some _ _ (Qeq_refl set)) HN HH PH Hk)
    as (ow & os & v2 & A1 & A2 & A3 & A4 & A5 & A6 & A7 & _).
  fold t' in A6. assert (Ev : t_c v' == t_c v2). { destruct Ht' as (_ & _ & _ & X & _), A6 as (_ & _ & _ & Y & _). exact (val_fun _ _ _ X Y). }
  rewrite Ev. apply (cylinder_stays q h (with_heat d ow os) v v2 set (set + 5) Pq Hh Hs A7); try assumption; try lra.
  cbn [with_heat v_dhw v_draw].
  pose proof Hb as (B1 & B2 & B3 & B4 & B5 & B6 & B7 & B8 & B9 & B10). pose proof Hx as (W1 & W2 & W3 & W4 & W5 & W6).
  pose proof (old_water_val dt c t (Some set) (w_dhw x) q _ _ v _ set Hq Pq B4 B9 IT (val_some _ _ (Qeq_refl set)) W3) as V1.
  pose proof (old_space_val dt b nominal t q _ _ v N Hq Pq B3 B8 IT HN) as V2.
  destruct (C204_heat heat k _ _ H _ _ HH PH V1 V2 Hk) as (ow' & os' & D1 & _ & _ & D4 & D5 & D6 & D7 & _ & D9 & _).
  pose proof (val_fun _ _ _ A1 D1) as Ew. destruct (k_hw k); [|right; rewrite Ew; apply D7; reflexivity].
  destruct (D9 eq_refl) as (L1 & L2 & L3). set (need := cc h / q * (set - t_c v) + v_draw d * (t_c v - t_w v) + h_loss h * (t_c v - t_i v)) in *.
  destruct (Qlt_le_dec need 0) as [Z|Z]; [right; rewrite Ew; apply L1; lra|left]. destruct (Qlt_le_dec need H) as [Y|Y]; rewrite Ew; [rewrite L2; lra|rewrite L3; lra].
Qed.
Print Assumptions C204_never_off.

(** Two minutes of it, from 64 degrees with a set point of 60. *)
Example C204_never_off_ex :
  let t := Temps (Some 15) (Some 18) (Some 40) (Some 64) (Some 10) in
  let w := Dwelling 0 0 true None 60 50 false (TStates true false false) in
  exists w' t' v', heated (Some 60) 60 ex_building ex_cylinder (House 60000 60000 60000 6000 0 0 0 0 0 0) (Some 1000) (Some 50) 60 w' t' v' 1 /\ s_hw (w_states w') = true /\
    option_map Qred (T_cyl t') = Some 64.
Proof.
  eexists. eexists. exists (T5 15 18 40 64 10). split; [|split].
  - eapply (heated_next _ _ _ _ _ _ _ _ (Dwelling 0 0 true None 60 50 false (TStates true false false)) (Temps (Some 15) (Some 18) (Some 40) (Some 64) (Some 10)) (T5 15 18 40 64 10) 0 (Ask 64 18 40 0) _ _ _ ex_weather (Drive 5 0 0 0 0 0 0 0)).
    + apply heated_start; [reflexivity|reflexivity| |reflexivity]. repeat split; apply val_some; reflexivity.
    + reflexivity.
    + reflexivity.
    + reflexivity.
    + vm_compute. reflexivity.
    + repeat split; apply val_some; reflexivity.
    + repeat split; discriminate.
    + repeat split; (eexists; split; [vm_compute; reflexivity|reflexivity]).
  - reflexivity.
  - vm_compute. reflexivity.
Qed.

(** Fuel: a dictionary with one entry per kind of fuel; every dwelling burns its own kind only,
    in proportion to the heat. *)
Theorem C204_fuel : forall l, (forall f, In f l -> (y_fuel (f_sys f) = "Mains gas"%string \/ y_fuel (f_sys f) = "Electricity"%string) /\
     exists on, dget String.eqb (f_ctl f) "heater on"%string = Some on) ->
  exists out, old_fuels l = Ok out /\ NoDup (map fst out) /\
    (forall name, In name (map fst out) <-> exists f, In f l /\ y_fuel (f_sys f) = name) /\
    forall name v i f, In (name, v) out -> at_ l i f -> exists x, at_ v i x /\
      (y_fuel (f_sys f) <> name \/ dget String.eqb (f_ctl f) "heater on"%string = Some false -> val x 0) /\
      (y_fuel (f_sys f) = name -> dget String.eqb (f_ctl f) "heater on"%string = Some true ->
        forall F H T, val (y_flow (f_sys f)) F -> val (y_heat (f_sys f)) H -> val (f_total f) T ->
        (H <= 0 -> val x 0) /\
        (0 < H -> val x ((if String.eqb name "Mains gas"%string then F else F * 1000) * T / H)) /\
        (0 < H -> 0 <= F -> 0 <= T <= H -> name = "Mains gas"%string -> exists z, val x z /\ 0 <= z <= F)).
Proof.
  intros l Hl.
  assert (E1 : forall name, exists v, mapM (old_fuel_of name) l = Ok v).
  { intro name. apply mapM_total. intros f Hf. destruct (Hl f Hf) as (_ & on & Eo). unfold old_fuel_of, control. rewrite Eo. cbn [bind]. eauto. }
  assert (E2 : exists out, old_fuels l = Ok out).
  { apply mapM_total. intros name Hn. apply old_fuel_types_in in Hn. destruct Hn as (f & Hf & En). destruct (Hl f Hf) as [Hk _]. rewrite En in Hk.
    assert (B : (String.eqb name "Mains gas"%string || String.eqb name "Electricity"%string)%bool = true) by (destruct Hk as [-> | ->]; reflexivity).
    rewrite B. destruct (E1 name) as [v Ev]. rewrite Ev. cbn [bind]. eauto. }
  destruct E2 as [out Eo]. exists out. split; [exact Eo|]. unfold old_fuels in Eo. destruct (mapM_ok _ _ _ _ _ Eo) as [L K].
  assert (M : map fst out = old_fuel_types l).
  { apply same_places; [rewrite map_length; exact L|]. intros i a b Ha Hb. destruct (K i b Hb) as ([name v] & H1 & H2).
    apply at_map in Ha. destruct Ha as (p & Hp & ->). pose proof (at_fun _ _ _ _ _ Hp H1) as ->. simpl.
    destruct (String.eqb b "Mains gas"%string || String.eqb b "Electricity"%string)%bool; [|discriminate].
    destruct (mapM (old_fuel_of b) l); simpl in H2; [|discriminate]. congruence. }
  split; [rewrite M; apply old_fuel_types_nodup|]. split; [intro name; rewrite M; apply old_fuel_types_in|].
  intros name v i f Hin Hi. apply in_at in Hin. destruct Hin as [j Hj].
  destruct (lt_at _ (old_fuel_types l) j) as [nm Hnm]; [apply at_lt in Hj; lia|].
  destruct (K j nm Hnm) as (p & H1 & H2). pose proof (at_fun _ _ _ _ _ Hj H1) as <-.
  destruct (String.eqb nm "Mains gas"%string || String.eqb nm "Electricity"%string)%bool eqn:Ek; [|discriminate].
  destruct (mapM (old_fuel_of nm) l) as [v'|] eqn:Ev; simpl in H2; [|discriminate]. injection H2 as <- <-.
  destruct (mapM_ok _ _ _ _ _ Ev) as [_ Kv]. destruct (Kv i f Hi) as (x & Hx & Ex). exists x. split; [exact Hx|].
  unfold old_fuel_of, control in Ex. destruct (Hl f (at_in _ _ _ _ Hi)) as (_ & on & Eon). rewrite Eon in *. cbn [bind] in Ex. apply Ok_inj in Ex. subst x.
  assert (Z0 : val (Some 0) 0) by (apply val_some; reflexivity). split.
  - intros [N|[= ->]]; [apply String.eqb_neq in N; rewrite N; exact Z0|]. cbn [andb]. rewrite andb_false_r. exact Z0.
  - intros -> [= ->] F H T VF VH VT. rewrite String.eqb_refl. cbn [andb].
    assert (P : 0 < H -> val (nwhere (nlt (Some 0) (y_heat (f_sys f))) ((if String.eqb nm "Mains gas"%string then y_flow (f_sys f) else y_flow (f_sys f) *! Some 1000) *! f_total f /! y_heat (f_sys f)) (Some 0))
                             ((if String.eqb nm "Mains gas"%string then F else F * 1000) * T / H)).
    { intro P. rewrite (proj2 (nlt_val _ _ _ _ Z0 VH) P). cbn [nwhere]. apply val_div; [|exact VH|lra]. apply val_mul; [|exact VT].
      destruct (String.eqb nm "Mains gas"%string); [exact VF|]. apply val_mul; [exact VF|apply val_some; reflexivity]. }
    split; [|split; [exact P|]].
    + intro Q0. destruct (nlt (Some 0) (y_heat (f_sys f))) eqn:En; [|exact Z0]. apply (nlt_val _ _ _ _ Z0 VH) in En. lra.
    + intros PH PF PT ->. specialize (P PH). rewrite String.eqb_refl in P. exists (F * T / H). split; [exact P|]. split.
      * apply Qle_shift_div_l; [exact PH|]. rewrite Qmult_0_l. apply Qmult_le_0_compat; lra.
      * apply Qle_shift_div_r; [exact PH|]. rewrite (Qmult_comm F T), (Qmult_comm F H). apply Qmult_le_compat_r; lra.
Qed.
Print Assumptions C204_fuel.

(** Another kind of fuel in any dwelling: an error. *)
Theorem C204_unknown_fuel : forall l f, In f l -> (y_fuel (f_sys f) <> "Mains gas"%string /\ y_fuel (f_sys f) <> "Electricity"%string) ->
  exists e, old_fuels l = Err e /\ (e = ValueError \/ e = KeyError).
Proof.
  intros l f Hf [N1 N2].
  destruct (old_fuels l) as [out|e] eqn:E.
  - exfalso. unfold old_fuels in E. destruct (mapM_ok _ _ _ _ _ E) as [_ K].
    assert (I : In (y_fuel (f_sys f)) (old_fuel_types l)) by (apply old_fuel_types_in; eauto). apply in_at in I. destruct I as [i Hi].
    destruct (K i _ Hi) as (p & _ & H). apply String.eqb_neq in N1, N2. rewrite N1, N2 in H. discriminate.
  - exists e. split; [reflexivity|]. unfold old_fuels in E. apply mapM_fails in E. destruct E as (name & _ & E).
    destruct (String.eqb name "Mains gas"%string || String.eqb name "Electricity"%string)%bool; [|injection E as <-; left; reflexivity].
    destruct (mapM (old_fuel_of name) l) as [v|e'] eqn:Ev; simpl in E; [discriminate|]. injection E as ->.
    apply mapM_fails in Ev. destruct Ev as (g & _ & Ev). unfold old_fuel_of, control in Ev.
    destruct (dget String.eqb (f_ctl g) "heater on"%string); simpl in Ev; [discriminate|]. injection Ev as <-. right. reflexivity.
Qed.
Print Assumptions C204_unknown_fuel.

Definition ex_fired (fuel : string) (on : bool) (total : Q) : fired :=
  Fired (OSystem (Some 100) (Some 10) (Some 3) fuel (Some 10) ex_cylinder) (controls_dict (Controls on on false)) (Some total).
Example C204_fuel_ex :
  (exists out, old_fuels [ex_fired "Mains gas" true 5; ex_fired "Electricity" true 2; ex_fired "Mains gas" false 0] = Ok out /\
     map (fun p => (fst p, map (option_map Qred) (snd p))) out =
       [("Mains gas", [Some (3 # 2); Some 0; Some 0]); ("Electricity", [Some 0; Some 600; Some 0])]%string) /\
  old_fuels [ex_fired "Oil" true 5] = Err ValueError.
Proof. split; [eexists; split; vm_compute; reflexivity|reflexivity]. Qed.

(** The pumps: with controls that carry the thermostat and the timer of the rooms the pump runs
    if the heater is on or both are, and is on standby otherwise. *)
Theorem C204_pump : forall m d a b on, dget String.eqb d "space_thermostat"%string = Some a -> dget String.eqb d "space_timer"%string = Some b ->
  dget String.eqb d "heater on"%string = Some on ->
  exists p, old_pump m d = Ok p /\ (on = true \/ (a = true /\ b = true) -> p = y_pump m) /\ (on = false -> a = false \/ b = false -> p = y_standby m).
Proof.
  intros m d a b on Ha Hb Ho. unfold old_pump, control. rewrite Ha, Hb, Ho. cbn [bind]. eexists. split; [reflexivity|].
  destruct on, a, b; simpl; split; try (intros; reflexivity); try discriminate; try (intros [H|[H1 H2]]; discriminate); intros _ [H|H]; discriminate.
Qed.
Print Assumptions C204_pump.

Example C204_pump_ex : let m := OSystem (Some 100) (Some 10) (Some 3) "Mains gas" (Some 10) ex_cylinder in
  old_pump m [("space_thermostat", true); ("space_timer", false); ("heater on", false)]%string = Ok (Some 10) /\
  old_pump m [("space_thermostat", true); ("space_timer", true); ("heater on", false)]%string = Ok (Some 100).
Proof. vm_compute. split; reflexivity. Qed.

(** "The power of the pumps can be asked with the controls which the control simulator returns":
    it never can, the keys are missing. *)
Theorem C204_pump_with_controls_refuted : exists m h a, old_pump m (controls_dict (snd (answer h a))) = Err KeyError.
Proof. exists (OSystem None None None ""%string None ex_cylinder), (ex_dwelling 0 None true), (Ask 0 0 0 0). reflexivity. Qed.
Print Assumptions C204_pump_with_controls_refuted.
Theorem C204_pump_never : forall m h a, old_pump m (controls_dict (snd (answer h a))) = Err KeyError.
Proof. reflexivity. Qed.
Print Assumptions C204_pump_never.

(** "A heating system simulator can be created": the constructor calls a method that the class
    does not have; a child class must bring it. *)
Theorem C204_constructor : forall extra,
  (In "read_heating_system"%string extra -> construct_system extra = Ok tt) /\
  (~ In "read_heating_system"%string extra -> construct_system extra = Err AttributeError).
Proof.
  intro extra. assert (A : forall name, In name system_methods -> existsb (String.eqb name) (system_methods ++ extra) = true).
  { intros name Hn. apply existsb_exists. exists name. split; [apply in_or_app; left; exact Hn|apply String.eqb_refl]. }
  unfold construct_system, init_calls. cbn [fold_left]. split; intro H.
  - assert (E : existsb (String.eqb "read_heating_system") (system_methods ++ extra) = true).
    { apply existsb_exists. eexists. split; [apply in_or_app; right; exact H|apply String.eqb_refl]. }
    rewrite E. cbn [bind]. repeat (rewrite A by (simpl; tauto); cbn [bind]). reflexivity.
  - assert (E : existsb (String.eqb "read_heating_system") (system_methods ++ extra) = false).
    { destruct (existsb _ _) eqn:E; [|reflexivity]. apply existsb_exists in E. destruct E as (x & Hx & Ex). apply String.eqb_eq in Ex. subst x.
      apply in_app_or in Hx. destruct Hx as [Hx|Hx]; [|tauto]. exfalso. simpl in Hx. repeat destruct Hx as [Hx|Hx]; try discriminate; exact Hx. }
    rewrite E. cbn [bind]. reflexivity.
Qed.
Print Assumptions C204_constructor.
Theorem C204_constructor_refuted : exists e, construct_system [] = Err e.
Proof. exists AttributeError. reflexivity. Qed.
Print Assumptions C204_constructor_refuted.

(** Temperatures at the start: rooms and emitters alike between 16 and 27 degrees and at most
    2 above the weather of 16 to 25, walls not below 16 nor the weather, the cylinder between
    60 and 62, the cold water at 10. *)
Theorem C204_initial : forall out a b c x y z o, val out o -> val a x -> val b y -> val c z -> 0 <= x <= 1 -> 0 <= y <= 1 -> 0 <= z <= 1 ->
  exists v, temps_are (old_temperatures out a b c) v /\ 16 <= t_i v <= 27 /\ t_e v == t_i v /\ 16 <= t_b v /\ o <= t_b v /\
    (t_b v <= o + 2 \/ t_b v <= 18) /\ (16 <= o <= 25 -> o <= t_i v <= o + 2) /\ 60 <= t_c v <= 62 /\ t_w v == 10.
Proof.
  intros out a b c x y z o (o' & -> & Eo) (x' & -> & Ex) (y' & -> & Ey) (z' & -> & Ez) Px Py Pz.
  unfold old_temperatures. cbn [nop nclip nadd nmul].
  destruct (qmax_spec 16 o') as (A1 & A2 & A3). destruct (qmax_spec o' 16) as (B1 & B2 & B3). destruct (qmin_spec (qmax o' 16) 25) as (C1 & C2 & C3).
  eexists (T5 _ _ _ _ _). unfold temps_are. cbn [T_b T_i T_em T_cyl T_cold t_b t_i t_e t_c t_w].
  split; [repeat split; apply val_some; reflexivity|].
  set (m1 := qmax 16 o') in *. set (m2 := qmax o' 16) in *. set (m3 := qmin m2 25) in *. clearbody m1 m2 m3.
  repeat split; try (destruct C3, B3; lra); try (destruct A3; lra).
Qed.
Print Assumptions C204_initial.

Example C204_initial_ex : let t := old_temperatures (Some 3) (Some (1 # 2)) (Some (1 # 4)) (Some 1) in
  map (option_map Qred) [T_b t; T_i t; T_em t; T_cyl t; T_cold t] = [Some 17; Some (33 # 2); Some (33 # 2); Some 62; Some 10].
Proof. vm_compute. reflexivity. Qed.

(** A cylinder of v litres takes 4200 v joules per degree, lossless and without demand. *)
Theorem C204_cylinder : forall v loss dt set t c, ~ dt == 0 -> T_cyl t = Some c -> T_i t = Some c -> (exists x, T_cold t = Some x) ->
  exists q, old_target_water (Some dt) (old_cylinder (Some v) (Some loss)) t (Some set) (Some 0) = Some q /\ q * dt == 4200 * v * (set - c).
Proof.
  intros v loss dt set t c Hd H1 H2 [x H3]. unfold old_target_water, old_cylinder. rewrite H1, H2, H3. cbn.
  destruct (Qeq_bool dt 0) eqn:E0; [apply Qeq_bool_iff in E0; tauto|]. cbn. eexists. split; [reflexivity|]. field. exact Hd.
Qed.
Print Assumptions C204_cylinder.
Example C204_cylinder_ex : option_map Qred (old_target_water (Some 60) (old_cylinder (Some 125) (Some 2)) (Temps (Some 5) (Some 20) (Some 20) (Some 20) (Some 10)) (Some 60) (Some 0)) = Some 350000.
Proof. vm_compute. reflexivity. Qed.

(** Kinds 1 and 3 are regular, 2 is a combi boiler, 4 is no heating system. *)
Theorem C204_kinds : forall kind, (is_combi kind = true <-> kind = 2%Z) /\ (has_system kind = false <-> kind = 4%Z) /\ (is_combi kind = true -> has_system kind = true).
Proof.
  intro kind. unfold is_combi, has_system. rewrite negb_false_iff, negb_true_iff, !Z.eqb_eq, Z.eqb_neq. lia.
Qed.
Print Assumptions C204_kinds.
Example C204_kinds_ex : map is_combi [1; 2; 3; 4]%Z = [false; true; false; false] /\ map has_system [1; 2; 3; 4]%Z = [true; true; true; false].
Proof. split; reflexivity. Qed.
