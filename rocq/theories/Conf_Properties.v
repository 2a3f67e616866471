(** * Properties of the configuration tables of CREST (C209). *)

From Coq Require Import String List ZArith QArith Bool Arith Lia Lqa.
From Verif Require Import Prelude PreludeFacts SpecBase SpecBaseFacts Sampling_Spec Sampling_Model Sampling_Proofs Law_Spec Sheet_Model Sheet_Spec Sheet_Proofs
  Heat_Model Heat_Spec Fit_Model Fit_Spec Fit_Proofs Fit_Properties Conf_Model Conf_Spec Conf_Proofs.
Import ListNotations.
Open Scope string_scope.
Open Scope list_scope.
Open Scope Q_scope.

(** ** C209: heating systems, buildings and thermostats of a workbook *)

(** Every parameter of system [i] is the cell of row [i] under its own heading, for the
    systems of the version and no others. *)
Theorem C209_systems : forall version s t, sheet_once s -> parse_systems version s = Ok t ->
  exists n, systems_of version n /\
    top (w_share s) "Proportion of dwellings with this heating system" n (t_prob t) /\
    (forall key heading i v, In (key, heading) system_headings -> (holds (t_num t) key i v <-> (i < n)%nat /\ holds (w_num s) heading i v)) /\
    (forall i v, holds (t_txt t) "name" i v <-> (i < n)%nat /\ holds (w_txt s) "Type of heating unit" i v) /\
    (forall i v, holds (t_txt t) "fuel_type" i v <-> (i < n)%nat /\ exists raw, holds (w_txt s) "Type of fuel" i raw /\ stripped raw v) /\
    (forall i b, holds (t_flag t) "is_combi" i b <-> (i < n)%nat /\ exists x, holds (w_num s) "Type of system" i x /\ (b = true <-> val x 2)).
Proof.
  intros version s t (O1 & O2 & O3) H. unfold parse_systems in H. next H. apply rows_of in E. exists c. split; [exact E|]. cbv zeta in H. unfold cut_sheet in H. cbn [w_share w_num w_txt] in H.
  do 11 next H. injection H as <-. cbn [t_prob t_num t_txt t_flag].
  split; [exact (cut_top _ _ _ _ _ O1 E0)|]. split; [|split; [|split]].
  - intros key heading i v I. unfold system_headings in I. cbn [In] in I.
    repeat (destruct I as [I|I]; [injection I as <- <-; erewrite holds_dget; [|nodup|reflexivity]; apply cut_top; [exact O2|eassumption]|]). destruct I.
  - intros i v. erewrite holds_dget; [|nodup|reflexivity]. apply cut_top; [exact O3|eassumption].
  - intros i v. erewrite holds_dget; [|nodup|reflexivity]. pose proof (cut_top _ _ _ _ _ O3 E3) as T. unfold at_ at 1. rewrite nth_error_map. split.
    + destruct (nth_error c3 i) as [raw|] eqn:Er; [|discriminate]. cbn [option_map]. intro X. injection X as <-. apply T in Er. destruct Er as [L Er].
      split; [exact L|]. exists raw. split; [exact Er|apply delete_stripped].
    + intros [L (raw & Hr & St)]. rewrite (proj2 (T i raw) (conj L Hr)). cbn [option_map]. now rewrite (stripped_fun _ _ St).
  - intros i b. erewrite holds_dget; [|nodup|reflexivity]. pose proof (cut_top _ _ _ _ _ O2 E2) as T. unfold at_ at 1. rewrite nth_error_map. split.
    + destruct (nth_error c2 i) as [x|] eqn:Er; [|discriminate]. cbn [option_map]. intro X. injection X as <-. apply T in Er. destruct Er as [L Er].
      split; [exact L|]. exists x. split; [exact Er|apply is_two_iff].
    + intros [L (x & Hr & St)]. rewrite (proj2 (T i x) (conj L Hr)). cbn [option_map]. f_equal. pose proof (is_two_iff x). destruct b, (is_two x); intuition.
Qed.
Print Assumptions C209_systems.

Theorem C209_buildings : forall version s t, sheet_once s -> parse_buildings version s = Ok t ->
  (forall i v, at_ (t_prob t) i v <-> holds (w_share s) "Proportion of dwellings of this building type" i v) /\
  (forall key heading i v, In (key, heading) building_headings \/ key = "emitters_transfer_coef" /\ emitters_heading version heading ->
     (holds (t_num t) key i v <-> holds (w_num s) heading i v)) /\
  (forall i v, holds (t_txt t) "name" i v <-> holds (w_txt s) "Description" i v).
Proof.
  intros version s t (O1 & O2 & O3) H. unfold parse_buildings in H. do 13 next H. injection H as <-. cbn [t_prob t_num t_txt t_flag].
  split; [intros i v; apply wcol_holds; assumption|]. split.
  - intros key heading i v [I|[-> I]].
    + unfold building_headings in I. cbn [In] in I.
      repeat (destruct I as [I|I]; [injection I as <- <-; erewrite holds_dget; [|nodup|reflexivity]; apply wcol_holds; [exact O2|eassumption]|]). destruct I.
    + apply emitters_of in I. subst heading. erewrite holds_dget; [|nodup|reflexivity]. apply wcol_holds; assumption.
  - intros i v. erewrite holds_dget; [|nodup|reflexivity]. apply wcol_holds; assumption.
Qed.
Print Assumptions C209_buildings.

Theorem C209_thermostat : forall home water a, once home -> once water -> parse_thermostat home water = Ok a ->
  (exists ph, top home "Percentage of homes" 15 ph /\ running_sums ph (a_home_cdf a)) /\ top home "Demand temperature" 15 (a_home a) /\
  (exists pw, top water "Percentage of homes" 12 pw /\ running_sums pw (a_water_cdf a)) /\ top water "Hot water delivery temperature" 12 (a_water a) /\
  a_setpoint a = 50 /\ d_sh (a_bands a) = Some 2 /\ d_hw (a_bands a) = Some 5 /\ d_em (a_bands a) = Some 5.
Proof.
  intros home water a O1 O2 H. unfold parse_thermostat in H. cbv zeta in H. do 4 next H. injection H as <-. cbn.
  split; [exists c; split; [now apply cut_top|apply running_sums_cumsum]|]. split; [now apply cut_top|].
  split; [exists c1; split; [now apply cut_top|apply running_sums_cumsum]|]. split; [now apply cut_top|]. repeat split.
Qed.
Print Assumptions C209_thermostat.

(** A sheet with all its headings is read, and gives one entry of every parameter per
    probability. *)
Lemma systems_read : forall version n s k, systems_of version n -> systems_need s k ->
  exists t, parse_systems version s = Ok t /\ List.length (t_prob t) = Nat.min n k /\ complete_systems t.
Proof.
  intros version n s k V (N1 & N2 & N3). apply rows_of in V.
  pose proof (cut_has _ _ n _ _ N1) as M1. pose proof (cut_has _ _ n _ _ N2) as M2. pose proof (cut_has _ _ n _ _ N3) as M3. set (m := Nat.min n k) in *.
  unfold parse_systems. rewrite V. cbn [bind]. cbv zeta. unfold cut_sheet. cbn [w_share w_num w_txt].
  repeat match goal with
  | |- context [wcol (cut n (w_share s)) ?h] => let c := fresh "c" in let E := fresh "E" in let L := fresh "L" in
      destruct (wcol_has _ _ _ _ h M1 ltac:(cbn; tauto)) as (c & E & L); rewrite E; cbn [bind]
  | |- context [wcol (cut n (w_txt s)) ?h] => let c := fresh "c" in let E := fresh "E" in let L := fresh "L" in
      destruct (wcol_has _ _ _ _ h M2 ltac:(cbn; tauto)) as (c & E & L); rewrite E; cbn [bind]
  | |- context [wcol (cut n (w_num s)) ?h] => let c := fresh "c" in let E := fresh "E" in let L := fresh "L" in
      destruct (wcol_has _ _ _ _ h M3 ltac:(cbn; tauto)) as (c & E & L); rewrite E; cbn [bind]
  end.
  eexists. split; [reflexivity|]. cbn [t_prob]. split; [assumption|]. unfold complete_systems. cbn [t_prob t_num t_txt t_flag]. rewrite L.
  split; [|split]; (apply has_dget; [nodup|]); intros key I; cbn [In] in I;
    repeat (destruct I as [I|I]; [subst key; eexists; split; [reflexivity|rewrite ?map_length; assumption]|]); destruct I.
Qed.

Lemma buildings_read : forall version s k, buildings_need version s k ->
  exists t, parse_buildings version s = Ok t /\ List.length (t_prob t) = k /\ complete_buildings t.
Proof.
  intros version s k (N1 & N2 & N3 & N4). specialize (N4 _ (proj2 (emitters_of version _) eq_refl)). unfold parse_buildings.
  set (em := if String.prefix "v_2." version then _ else _) in *.
  repeat match goal with
  | |- context [wcol (w_share s) ?h] => let c := fresh "c" in let E := fresh "E" in let L := fresh "L" in
      destruct (wcol_has _ _ _ _ h N1 ltac:(cbn; tauto)) as (c & E & L); rewrite E; cbn [bind]
  | |- context [wcol (w_num s) em] => let c := fresh "c" in let E := fresh "E" in let L := fresh "L" in
      destruct (wcol_has _ _ _ _ em N4 (or_introl eq_refl)) as (c & E & L); rewrite E; cbn [bind]
  | |- context [wcol (w_txt s) ?h] => let c := fresh "c" in let E := fresh "E" in let L := fresh "L" in
      destruct (wcol_has _ _ _ _ h N2 ltac:(cbn; tauto)) as (c & E & L); rewrite E; cbn [bind]
  | |- context [wcol (w_num s) ?h] => let c := fresh "c" in let E := fresh "E" in let L := fresh "L" in
      destruct (wcol_has _ _ _ _ h N3 ltac:(cbn; tauto)) as (c & E & L); rewrite E; cbn [bind]
  end.
  eexists. split; [reflexivity|]. cbn [t_prob]. split; [assumption|]. unfold complete_buildings. cbn [t_prob t_num t_txt t_flag]. rewrite L.
  apply has_dget; [nodup|]; intros key I; cbn [In] in I;
    repeat (destruct I as [I|I]; [subst key; eexists; split; [reflexivity|rewrite ?map_length; assumption]|]); destruct I.
Qed.

(** With valid shares, the simulator of the five modules is built for every number of
    households and all draws. *)
Theorem C209_construct : forall version n k j h w s a b, systems_of version n ->
  sheet_once s -> sheet_once b -> once h -> once w ->
  systems_need s k -> buildings_need version b j ->
  has_columns h 15 ["Percentage of homes"; "Demand temperature"] -> has_columns w 12 ["Percentage of homes"; "Hot water delivery temperature"] ->
  (forall p, top (w_share s) "Proportion of dwellings with this heating system" n p -> valid_probabilities p) ->
  (forall p, In ("Proportion of dwellings of this building type", p) (w_share b) -> valid_probabilities p) ->
  (forall p, In ("Percentage of homes", p) h -> is_pdf p) -> (forall p, In ("Percentage of homes", p) w -> is_pdf p) ->
  a = Workbook s h w b ->
  exists d, crest_heating version a = Ok d /\
    forall algo dt outside m us, draws (6 * m) us -> exists f, five_construct algo dt outside d m us = Done f /\ f_n f = m /\ List.length (households f) = m.
Proof.
  intros version n k j h w s a b V Os Ob Oh Ow Ns Nb Nh Nw Ps Pb Ph Pw ->.
  destruct (systems_read _ _ _ _ V Ns) as (ts & Es & Ls & Cs). destruct (buildings_read _ _ _ Nb) as (tb & Eb & Lb & Cb).
  pose proof (cut_has _ _ 15 _ _ Nh) as Mh. pose proof (cut_has _ _ 12 _ _ Nw) as Mw. cbn [Nat.min] in Mh, Mw.
  destruct (wcol_has _ _ _ _ "Percentage of homes" Mh ltac:(cbn; tauto)) as (ph & E1 & L1). destruct (wcol_has _ _ _ _ "Demand temperature" Mh ltac:(cbn; tauto)) as (th & E2 & L2).
  destruct (wcol_has _ _ _ _ "Percentage of homes" Mw ltac:(cbn; tauto)) as (pw & E3 & L3). destruct (wcol_has _ _ _ _ "Hot water delivery temperature" Mw ltac:(cbn; tauto)) as (tw & E4 & L4).
  unfold crest_heating. cbn [k_systems k_home k_water k_buildings]. rewrite Es. cbn [bind]. unfold parse_thermostat. cbv zeta. rewrite E1, E2, E3, E4. cbn [bind]. rewrite Eb. cbn [bind].
  eexists. split; [reflexivity|]. intros algo dt outside m us D. edestruct (C173_total algo dt outside) with (ph := ph) (pw := pw) as (f & Hf & Hn & Hl & _); [|exact D|exists f; split; [exact Hf|auto]].
  assert (Full : forall A (d : list (string * list A)) x l c, has_columns d l [x] -> wcol (cut l d) x = Ok c -> In (x, c) d).
  { intros A d x l c Hc Hx. apply wcol_in, in_cut in Hx. destruct Hx as (c0 & I & ->). rewrite <- (proj2 (Hc x (or_introl eq_refl)) c0 I), firstn_all. exact I. }
  split; [|split; [exact Cs|split; [|split; [|exact Cb]]]]; cbn [e_systems e_thermo e_buildings].
  - apply Ps. destruct (C209_systems _ _ _ Os Es) as (n' & V' & T & _). destruct V; inversion V'; subst; exact T.
  - unfold thermo_ok. cbn [a_home_cdf a_home a_water_cdf a_water].
    assert (Xh : In ("Percentage of homes", ph) h) by (apply (Full _ _ _ 15%nat); [apply (has_sub _ _ _ _ _ Nh); cbn; tauto|exact E1]).
    assert (Xw : In ("Percentage of homes", pw) w) by (apply (Full _ _ _ 12%nat); [apply (has_sub _ _ _ _ _ Nw); cbn; tauto|exact E3]).
    split; [intros ->; discriminate|]. split; [exact (Ph _ Xh)|]. split; [apply running_sums_cumsum|]. split; [congruence|].
    split; [intros ->; discriminate|]. split; [exact (Pw _ Xw)|]. split; [apply running_sums_cumsum|congruence].
  - apply Pb. unfold parse_buildings in Eb. destruct (wcol (w_share b) _) as [p|] eqn:Ep; [|discriminate]. apply wcol_in in Ep. cbn [bind] in Eb.
    do 12 next Eb. injection Eb as <-. exact Ep.
Qed.
Print Assumptions C209_construct.

(** The heating system of a household has all its parameters from one row of the sheet, the
    row of its draw; it heats rooms and water with the same power. *)
Theorem C209_household : forall version s t n us y h, sheet_once s -> parse_systems version s = Ok t -> draws n us -> assign_systems t us = Done y -> (h < n)%nat ->
  exists u i m, at_ us h u /\ type_of (t_prob t) u i /\ system_at y h = Some m /\
    holds (w_num s) "Heat output of unit" i (m_sh m) /\ m_dhw m = m_sh m /\ holds (w_num s) "Pump power" i (m_pump m) /\
    holds (w_num s) "Standby power" i (m_standby m) /\ holds (w_num s) "Fuel flow rate (nominal)" i (m_flow m) /\
    holds (w_num s) "Calorific value of fuel flow rate" i (m_toW m) /\ holds (w_num s) "DHW Tank Heat Loss" i (H_loss (m_cyl m)) /\
    (exists raw, holds (w_txt s) "Type of fuel" i raw /\ stripped raw (m_fuel m)) /\
    (exists kind, holds (w_num s) "Type of system" i kind /\ (m_combi m = true <-> val kind 2)).
Proof.
  intros version s t n us y h O Hp D Hy Hh. destruct (C209_systems _ _ _ O Hp) as (k & _ & _ & K & _ & F & B).
  destruct (C171_system _ _ _ _ _ D Hy Hh) as (u & i & m & Hu & Ti & _ & Hm & R1 & R2 & R3 & R4 & R5 & R6 & R7 & R8 & R9 & _).
  exists u, i, m. split; [exact Hu|]. split; [exact Ti|]. split; [exact Hm|].
  apply (K _ "Heat output of unit"%string) in R1; [|cbn; tauto]. apply (K _ "Heat output of unit"%string) in R2; [|cbn; tauto].
  apply (K _ "Pump power"%string) in R3; [|cbn; tauto]. apply (K _ "Standby power"%string) in R4; [|cbn; tauto].
  apply (K _ "Fuel flow rate (nominal)"%string) in R5; [|cbn; tauto]. apply (K _ "Calorific value of fuel flow rate"%string) in R6; [|cbn; tauto].
  apply (K _ "DHW Tank Heat Loss"%string) in R9; [|cbn; tauto]. apply F in R7. apply B in R8.
  split; [tauto|]. split; [destruct R1 as (_ & c1 & I1 & A1), R2 as (_ & c2 & I2 & A2); destruct O as (_ & O2 & _); rewrite (in_once _ _ _ _ _ O2 I1 I2) in A1; exact (at_fun _ _ _ _ _ A2 A1)|].
  repeat (split; [tauto|]). tauto.
Qed.
Print Assumptions C209_household.

(** What is refused: another version, and a sheet without one of the headings. *)
Lemma wcol_err : forall A (d : list (string * list A)) k e, wcol d k = Err e -> e = KeyError.
Proof. intros A d k e H. unfold wcol in H. destruct (dget String.eqb d k); congruence. Qed.

Lemma missing_col : forall A (d : list (string * list A)) k n c, (forall c, ~ In (k, c) d) -> wcol (cut n d) k = Ok c -> False.
Proof. intros A d k n c M H. rewrite cut_missing in H by exact M. discriminate. Qed.

Theorem C209_refused : forall version s,
  ((forall n, ~ systems_of version n) -> parse_systems version s = Err NotImplementedError) /\
  (forall n heading, systems_of version n -> In heading ("Type of system" :: map snd system_headings) -> (forall c, ~ In (heading, c) (w_num s)) ->
     parse_systems version s = Err KeyError).
Proof.
  intros version s. split.
  - intro N. unfold parse_systems. destruct (heating_rows version) as [n|e] eqn:E; [destruct (N n); now apply rows_of|].
    cbn [bind]. unfold heating_rows in E. destruct (String.eqb version "v_2.2"); [discriminate|]. destruct (String.eqb version "v_2.3.3"); [discriminate|congruence].
  - intros n heading V I M. apply rows_of in V. destruct (parse_systems version s) as [t|e] eqn:P; unfold parse_systems in P; rewrite V in P; cbn [bind] in P; cbv zeta in P; unfold cut_sheet in P; cbn [w_share w_num w_txt] in P.
    + exfalso. do 11 next P. clear P. cbn [map snd system_headings In] in I.
      repeat (destruct I as [<-|I]; [eapply missing_col; [exact M|eassumption]|]). destruct I.
    + f_equal. repeat match type of P with bind ?X _ = _ => let E := fresh "E" in destruct X eqn:E; [|apply wcol_err in E; cbn [bind] in P; congruence]; cbn [bind] in P end. discriminate.
Qed.
Print Assumptions C209_refused.

Definition boilers : wsheet := WSheet
  [("Proportion of dwellings with this heating system", [(1 # 2); (1 # 4); (1 # 4); 7])]
  [("Type of system", [Some 1; Some 2; None; Some 2]); ("Fuel flow rate (nominal)", [Some 3; Some 4; Some 5; None]); ("Calorific value of fuel flow rate", [Some 10; Some 11; Some 12; None]);
   ("Heat output of unit", [Some 15; Some 30; Some 20; None]); ("Standby power", [Some 8; Some 9; None; None]); ("Pump power", [Some 70; Some 80; Some 90; None]);
   ("DHW cylinder volume", [Some 125; Some 1; Some 100; None]); ("DHW Tank Heat Loss", [Some 2; Some 0; Some 3; None])]
  [("Type of heating unit", ["Regular boiler"; "Combi boiler"; "Heat pump"; "note"]); ("Type of fuel", ["Mains gas"; "Mains gas"; " Grid electricity "; ""])].
Example C209_systems_ex : sheet_once boilers /\ systems_need boilers 4 /\
  match parse_systems "v_2.2" boilers with Ok t => (t_prob t, dget String.eqb (t_flag t) "is_combi", dget String.eqb (t_txt t) "fuel_type", dget String.eqb (t_num t) "heat_output_dhw")
    | Err _ => ([], None, None, None) end =
    ([(1 # 2); (1 # 4); (1 # 4)], Some [false; true; false], Some ["Mainsgas"; "Mainsgas"; "Gridelectricity"], Some [Some 15; Some 30; Some 20]).
Proof.
  split; [split; [nodup|split; nodup]|]. split; [|vm_compute; reflexivity].
  split; [|split]; (apply has_dget; [nodup|]); intros key I; cbn [In map snd system_headings] in I;
    repeat (destruct I as [I|I]; [subst key; eexists; split; [reflexivity|reflexivity]|]); destruct I.
Qed.
Example C209_refused_ex : parse_systems "v_1.0" boilers = Err NotImplementedError /\ parse_systems "v_2.3.3" (WSheet (w_share boilers) (tl (w_num boilers)) (w_txt boilers)) = Err KeyError.
Proof. split; vm_compute; reflexivity. Qed.
Example C209_thermostat_ex : match parse_thermostat [("Percentage of homes", [(1 # 4); (3 # 4)]); ("Demand temperature", [18; 21])]
    [("Hot water delivery temperature", [50]); ("Percentage of homes", [1])] with
  Ok a => (map Qred (a_home_cdf a), a_home a, a_water a, d_em (a_bands a)) | Err _ => ([], [], [], None) end = ([(1 # 4); 1], [18; 21], [50], Some 5).
Proof. vm_compute. reflexivity. Qed.
Example C209_household_ex : match parse_systems "v_2.2" boilers with
  | Ok t => match assign_systems t [(9 # 10); (1 # 10); (6 # 10)] with Done y => (y_types y, y_pump y, y_combi y) | Fail _ => ([], [], []) end | Err _ => ([], [], []) end =
  ([2; 0; 1]%nat, [Some 90; Some 70; Some 80], [false; false; true]).
Proof. vm_compute. reflexivity. Qed.
Example C209_buildings_ex : parse_buildings "v_2.2" boilers = Err KeyError.
Proof. vm_compute. reflexivity. Qed.
