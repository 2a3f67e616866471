(** * Appliances started at random by activities: the properties. *)

From Coq Require Import String List ZArith QArith Bool Arith Lia Lqa.
From Verif Require Import Prelude PreludeFacts SpecBase SpecBaseFacts Parse_Model Appliance_Model Appliance_Spec AppSetup_Model AppSetup_Spec ActApp_Model ActApp_Spec ProbApp_Model ProbApp_Spec.
From Verif Require Import Matrix_Proofs Appliance_Proofs Appliance_RunProofs Appliance_TypeProofs AppSetup_Proofs AppSetup_InitProofs ActApp_Proofs ActApp_RunProofs ProbApp_Proofs ProbApp_StepProofs ProbApp_RunProofs ProbApp_ProbProofs ProbApp_MoreProofs.
Import ListNotations.
Local Open Scope nat_scope.

(** The household of the examples: a washing machine, a dryer that follows it, a
    dishwasher that follows the activity 'dishes', a cooker that stops with 'cooking'
    and a fridge.  A year has 100 steps. *)
Definition washer := App "washer" 1 500 false 3 5 false 0 false 0 0.
Definition dryer := App "dryer" 2 1000 false 2 0 false 0 false 0 0.
Definition dish := App "dish" 0 300 false 2 0 false 0 false 0 0.
Definition cooker := App "cooker" 0 2000 false 4 0 false 0 true 0 0.
Definition fridge := App "fridge" 0 50 false 1 0 false 0 false 0 0.
Definition home_apps := [washer; dryer; dish; cooker; fridge].
Definition home_related := ["laundry"; "laundry"; "dishes"; "cooking"; "level"]%string.
Definition home_after := ["nan"; "nan"; "dishes"; "nan"; "nan"]%string.
Definition home_follows := ["nan"; "washer"; "nan"; "nan"; "nan"]%string.
Definition home_group := GroupData (Some 2%Q) (Ok [10; 5; 73; 8; 1])%Q
  [("laundry", [1#4; 3#4]); ("dishes", [1#2]); ("cooking", [1#5])]%Q%string
  [("laundry", [1]); ("dishes", [0; 1]); ("cooking", [1])]%Q%string.
Definition home_loads := [("fridge"%string, [("f"%string, [10; 20; 30]%Q)])].
Definition idle_acts := [("laundry", [0]); ("dishes", [0]); ("cooking", [0])]%Z%string.
Definition zero_draws := PDraws (fun _ _ => 0)%Q (fun _ _ _ => 0)%Q (fun _ _ _ => 0)%Q (fun _ _ => 0) (fun _ _ _ => 0) (fun _ _ _ => 0).
Definition home (own : list bool) (acts : list (string * list Z)) : result probsim :=
  make_prob 315576 home_apps home_related (Some home_after) (Some home_follows) [0] [home_group] [own]
    OnlyAlwaysOn (Ok []) (Ok home_loads) (fun _ _ => 0) (fun _ _ => 0) (fun _ _ => 2) (fun _ _ => 0%Z) acts.
Definition doing (laundry dishes cooking : Z) := [("laundry", [laundry]); ("dishes", [dishes]); ("cooking", [cooking])]%string.
Definition lefts (r : result probsim) : list (list Q) := match r with Ok st => map (map Qred) (s_left (p_base st)) | Err _ => [] end.
Definition all5 := [true; true; true; true; true].

(** States that can be reached from such a household. *)
Definition home_run (own : list bool) (l : list action) (st : probsim) : Prop :=
  exists st0, constructed 1 315576 home_apps home_related home_after home_follows [0] [home_group] [own]
    OnlyAlwaysOn (Ok []) (Ok home_loads) (fun _ _ => 0) (fun _ _ => 0) (fun _ _ => 2) (fun _ _ => 0%Z) idle_acts st0 /\
    fair_run 1 l /\ prob_run st0 l = Ok st.

Lemma doing_counts : forall a b c, (0 <= a)%Z -> (0 <= b)%Z -> (0 <= c)%Z -> counts_of 1 (doing a b c).
Proof.
  intros a b c A B C. split.
  - repeat constructor; simpl; intuition discriminate.
  - intros act l [E|[E|[E|[]]]]; injection E as _ <-; (split; [reflexivity|repeat constructor; assumption]).
Qed.
Lemma zero_fair : fair zero_draws.
Proof. repeat split; simpl; lra. Qed.
Lemma home_reached : forall own l st, length own = 5 -> (forall x, In x l -> x = Look \/ exists a b c, (0 <= a)%Z /\ (0 <= b)%Z /\ (0 <= c)%Z /\ x = Step zero_draws (doing a b c)) ->
  bind (home own idle_acts) (fun st0 => prob_run st0 l) = Ok st -> home_run own l st.
Proof.
  intros own l st L A H. destruct (home own idle_acts) as [st0|] eqn:E; [|discriminate]. cbn [bind] in H. exists st0. split; [|split; [|exact H]].
  - split. { repeat (split; [reflexivity|]). intros g [<-|[]]. split; [repeat constructor; simpl; intuition discriminate|intros ts X; injection X as <-; reflexivity]. }
    split. { split; [reflexivity|]. intros h row X. destruct h as [|[|h]]; [|discriminate X|discriminate X]. injection X as <-. exact L. }
    split; [reflexivity|]. split; [apply (doing_counts 0 0 0); lia|exact E].
  - intros d acts I. destruct (A _ I) as [X|(a & b & c & Ha & Hb & Hc & X)]; [discriminate|]. injection X as -> ->. split; [apply zero_fair|apply doing_counts; assumption].
Qed.
Ltac home_steps := intros x I; simpl in I; repeat (destruct I as [I|I]; [first [left; symmetry; exact I|right; do 3 eexists; split; [|split; [|split; [|symmetry; exact I]]]; lia]|]); destruct I.
Ltac cell := split; [reflexivity|]; repeat (split; [eexists; split; reflexivity|]); eexists; split; reflexivity.

(** ** C110: a running appliance is not started again *)

(** An owned appliance with more than one step left runs on, or is switched off by the
    end of its activity. *)
Theorem C110_running : forall n st af fo f d acts st' h j v, wellformed n st af fo -> one_follower fo f -> fair d -> counts_of n acts -> current st ->
  prob_step st d acts = Ok st' -> sees (p_base st) h j v -> v_own v = true -> (1 < v_left v)%Q ->
  exists w, sees (p_base st') h j w /\ (forced_to_stop st acts h j -> halted v w) /\ (~ forced_to_stop st acts h j -> goes_on v w).
Proof. exact running_outcome. Qed.

(** The hypotheses hold after every run with at least one step. *)
Theorem C110_reached : forall n step apps related af fo f hh_types groups own algo sw fu p1 p2 start wait acts0 st0 l st,
  constructed n step apps related af fo hh_types groups own algo sw fu p1 p2 start wait acts0 st0 -> flowing apps -> one_follower fo f ->
  fair_run n l -> prob_run st0 l = Ok st ->
  wellformed n st af fo /\ p_related st = related /\ s_own (p_base st) = own /\ p_probs st = p_probs st0 /\ p_prev st = last (inputs l) acts0 /\ (inputs l <> [] -> current st).
Proof. exact reached_state. Qed.

Example C110_example : map (fun k => lefts (bind (home all5 idle_acts) (fun st => prob_run st (repeat (Step zero_draws (doing 1 0 0)) k)))) [1; 2; 3; 4; 5; 6] =
  [[[3; 0; 0; 0; 1]]; [[2; 0; 0; 0; 0]]; [[1; 0; 0; 0; 0]]; [[3; 2; 0; 0; 0]]; [[2; 1; 0; 0; 0]]; [[1; 0; 0; 0; 0]]]%Q.
Proof. vm_compute. reflexivity. Qed.

(** ** C111: appliances start for one of three reasons *)

(** What becomes of an appliance that is not running. *)
Theorem C111_idle : forall n st af fo f d acts st' h j v, wellformed n st af fo -> one_follower fo f -> fair d -> counts_of n acts -> current st ->
  prob_step st d acts = Ok st' -> sees (p_base st) h j v -> (v_own v = false \/ (v_left v <= 0)%Q \/ (p_seen st = None /\ (v_left v <= 1)%Q)) ->
  exists w, sees (p_base st') h j w /\
    (starts_by_activity st d acts h j -> fresh_cycle v w) /\
    (starts_after_activity st d acts h j -> ~ forced_to_stop st acts h j -> fresh_cycle v w) /\
    (starts_after_activity st d acts h j -> (exists a, at_ af j a /\ at_ (p_related st) j a) -> fresh_cycle v w) /\
    (starts_after_activity st d acts h j -> fresh_cycle v w \/ halted v w) /\
    (~ starts_by_activity st d acts h j -> ~ starts_after_activity st d acts h j ->
       (forced_to_stop st acts h j -> halted v w) /\
       (~ forced_to_stop st acts h j -> (starts_after_appliance st d h j -> fresh_cycle v w) /\ (~ starts_after_appliance st d h j -> goes_on v w))).
Proof. exact idle_outcome. Qed.

(** The time left never gets longer for another reason. *)
Theorem C111_only : forall n st af fo f d acts st' h j v w, wellformed n st af fo -> one_follower fo f -> fair d -> counts_of n acts ->
  (forall U, p_seen st = Some U -> shaped n (length (s_apps (p_base st))) U) ->
  prob_step st d acts = Ok st' -> sees (p_base st) h j v -> sees (p_base st') h j w -> (0 < v_left w)%Q -> (v_left v < v_left w)%Q ->
  starts_by_activity st d acts h j \/ starts_after_activity st d acts h j \/ starts_after_appliance st d h j.
Proof. exact only_reasons. Qed.

(** The waiting time 'after_cycle_delay' is counted but not respected. *)
Theorem C111_delay_refuted : exists own l st d acts st' h j v w, home_run own l st /\ current st /\ fair d /\ counts_of 1 acts /\ prob_step st d acts = Ok st' /\
  sees (p_base st) h j v /\ sees (p_base st') h j w /\ v_own v = true /\ (v_left v <= 0)%Q /\ (4 <= v_refresh v)%Z /\ (v_left w == 3)%Q.
Proof.
  exists all5, [Step zero_draws (doing 1 0 0); Step zero_draws (doing 0 0 0); Step zero_draws (doing 0 0 0); Step zero_draws (doing 0 0 0)].
  eexists. exists zero_draws, (doing 1 0 0). eexists. exists 0, 0. eexists (View _ _ _ _ _ _). eexists (View _ _ _ _ _ _).
  split. { apply home_reached; [reflexivity|home_steps|vm_compute; reflexivity]. }
  split; [left; reflexivity|]. split; [apply zero_fair|]. split; [apply doing_counts; lia|]. split; [vm_compute; reflexivity|].
  split; [cell|]. split; [cell|]. split; [reflexivity|]. split; [vm_compute; discriminate|]. split; [vm_compute; discriminate|reflexivity].
Qed.

(** An appliance the household does not own can start the one that follows it. *)
Theorem C111_unowned_refuted : exists own l st d acts st' h j i v w u, home_run own l st /\ current st /\ fair d /\ counts_of 1 acts /\ prob_step st d acts = Ok st' /\
  sees (p_base st) h i u /\ v_own u = false /\ ap_type (v_app u) = "washer"%string /\
  sees (p_base st) h j v /\ sees (p_base st') h j w /\ v_own v = true /\ at_ home_follows j "washer"%string /\ (v_left v <= 0)%Q /\ (v_left w == 2)%Q.
Proof.
  exists [false; true; true; true; true], [Step zero_draws (doing 1 0 0); Step zero_draws (doing 0 0 0); Step zero_draws (doing 0 0 0)].
  eexists. exists zero_draws, (doing 0 0 0). eexists. exists 0, 1, 0. eexists (View _ _ _ _ _ _). eexists (View _ _ _ _ _ _). eexists (View _ _ _ _ _ _).
  split. { apply home_reached; [reflexivity|home_steps|vm_compute; reflexivity]. }
  split; [left; reflexivity|]. split; [apply zero_fair|]. split; [apply doing_counts; lia|]. split; [vm_compute; reflexivity|].
  split; [cell|]. split; [reflexivity|]. split; [reflexivity|]. split; [cell|]. split; [cell|]. split; [reflexivity|]. split; [reflexivity|]. split; [vm_compute; discriminate|reflexivity].
Qed.

Example C111_example : map (fun l => lefts (bind (home all5 idle_acts) (fun st => prob_run st l)))
  [[Step zero_draws (doing 0 1 0)]; [Step zero_draws (doing 0 1 0); Step zero_draws (doing 0 0 0)];
   [Step zero_draws (doing 0 1 1); Step zero_draws (doing 0 1 1); Step zero_draws (doing 0 0 0)]] =
  [[[0; 0; 0; 0; 1]]; [[0; 0; 2; 0; 0]]; [[0; 0; 2; 0; 0]]]%Q.
Proof. vm_compute. reflexivity. Qed.

(** ** C112: the end of the activity switches appliances off *)

(** Appliances with 'inactive_switch_off' that do not start after the activity. *)
Theorem C112_stops_partial : forall n st af fo f d acts st' h j v, wellformed n st af fo -> one_follower fo f -> fair d -> counts_of n acts ->
  (forall U, p_seen st = Some U -> shaped n (length (s_apps (p_base st))) U) ->
  prob_step st d acts = Ok st' -> sees (p_base st) h j v -> forced_to_stop st acts h j -> ~ starts_after_activity st d acts h j ->
  exists w, sees (p_base st') h j w /\ halted v w.
Proof. exact forced_halts. Qed.

(** An appliance that also follows the activity starts in the step in which it should
    be switched off. *)
Theorem C112_stops_refuted : exists n step apps related af fo hh_types groups own algo sw fu p1 p2 start wait acts0 st d acts st' h j v w,
  constructed n step apps related af fo hh_types groups own algo sw fu p1 p2 start wait acts0 st /\ one_follower fo 0 /\ fair d /\ counts_of n acts /\
  prob_step st d acts = Ok st' /\ forced_to_stop st acts h j /\ sees (p_base st) h j v /\ v_own v = true /\ sees (p_base st') h j w /\ (v_left w == 4)%Q.
Proof.
  exists 1, 315576%Q, [dryer; cooker], ["laundry"; "cooking"]%string, ["nan"; "cooking"]%string, ["washer"; "nan"]%string, [0],
    [GroupData None (Ok [0; 10]%Q) [("cooking"%string, [1]%Q)] [("cooking"%string, [0; 1]%Q)]], [[true; true]], Nothing, (Ok []), (Ok []), (fun _ _ => 0), (fun _ _ => 0), (fun _ _ => 0), (fun _ _ => 0%Z),
    [("cooking"%string, [1%Z])]. eexists. exists zero_draws, [("cooking"%string, [0%Z])]. eexists. exists 0, 1. eexists (View _ _ _ _ _ _). eexists (View _ _ _ _ _ _).
  assert (C : forall z, (0 <= z)%Z -> counts_of 1 [("cooking"%string, [z])]).
  { intros z Hz. split; [repeat constructor; simpl; tauto|]. intros act l [E|[]]. injection E as _ <-. split; [reflexivity|]. repeat constructor. exact Hz. }
  split.
  { split. { repeat (split; [reflexivity|]). intros g [<-|[]]. split; [repeat constructor; simpl; tauto|intros ts X; injection X as <-; reflexivity]. }
    split. { split; [reflexivity|]. intros h row X. destruct h as [|[|h]]; [|discriminate X|discriminate X]. injection X as <-. reflexivity. }
    split; [reflexivity|]. split; [apply C; lia|vm_compute; reflexivity]. }
  split. { split; [repeat constructor|]. intros j s X. destruct j as [|[|[|j]]]; try discriminate X; injection X as <-; split; intro; try reflexivity; try discriminate. contradiction. }
  split; [apply zero_fair|]. split; [apply C; lia|]. split; [vm_compute; reflexivity|].
  split. { exists "cooking"%string. eexists. split; [reflexivity|]. split; [reflexivity|]. split; [reflexivity|]. split; [exists [0%Z]; split; reflexivity|]. exists 1%Z. split; [lia|]. exists [1%Z]. split; reflexivity. }
  split; [cell|]. split; [reflexivity|]. split; [cell|reflexivity].
Qed.

Example C112_example : map (fun l => lefts (bind (home all5 idle_acts) (fun st => prob_run st l)))
  [[Step zero_draws (doing 1 0 1)]; [Step zero_draws (doing 1 0 1); Step zero_draws (doing 0 0 0)]] = [[[3; 0; 0; 4; 1]]; [[2; 0; 0; 0; 0]]]%Q.
Proof. vm_compute. reflexivity. Qed.

(** ** C113: appliances of the whole day *)

(** Without a reason to start, the time left from the construction runs out: after
    that many steps the appliance is off. *)
Theorem C113_runs_out : forall n step apps related af fo f hh_types groups own algo sw fu p1 p2 start wait acts0 st0 l st h j r,
  constructed n step apps related af fo hh_types groups own algo sw fu p1 p2 start wait acts0 st0 -> flowing apps -> one_follower fo f ->
  fair_run n l -> prob_run st0 l = Ok st ->
  at_ related j r -> at_ af j "nan"%string -> at_ fo j "nan"%string -> (forall acts, In acts (inputs l) -> ~ mentions acts r /\ ~ mentions acts "nan"%string) -> h < n ->
  exists v w, sees (p_base st0) h j v /\ sees (p_base st) h j w /\ same_static v w /\
    (whole_day r -> 0 < v_dur v -> v_left v = qn (start h j)) /\ (~ (whole_day r /\ 0 < v_dur v) -> v_left v = 0%Q) /\
    (v_left v <= qn (length (inputs l)) -> v_left w <= 0)%Q /\ (qn (length (inputs l)) < v_left v -> v_left w == v_left v - qn (length (inputs l)))%Q.
Proof. exact runs_out. Qed.

(** So a fridge is off all day, contrary to 'level' appliances of the other simulators. *)
Theorem C113_whole_day_refuted : exists own l st h j r v, home_run own l st /\ current st /\ at_ home_related j r /\ whole_day r /\ sees (p_base st) h j v /\ v_own v = true /\
  at2 (usage_read st) h j false.
Proof.
  exists all5, [Step zero_draws (doing 0 0 0); Step zero_draws (doing 0 0 0)]. eexists. exists 0, 4, "level"%string. eexists (View _ _ _ _ _ _).
  split. { apply home_reached; [reflexivity|home_steps|vm_compute; reflexivity]. }
  split; [left; reflexivity|]. split; [reflexivity|]. split; [left; reflexivity|]. split; [cell|]. split; [reflexivity|]. eexists. split; reflexivity.
Qed.

Example C113_example : map (fun k => map (fun row => nth 4 row 9%Q) (lefts (bind (home all5 idle_acts) (fun st => prob_run st (repeat (Step zero_draws (doing 1 0 0)) k))))) [0; 1; 2; 3] = [[2]; [1]; [0]; [0]]%Q.
Proof. vm_compute. reflexivity. Qed.

(** ** C114: readings *)

(** Reading the usage or the power before a step does not change what happens, unless
    an owned appliance is in its last step. *)
Theorem C114_look_partial : forall n st af fo d acts, wellformed n st af fo -> p_seen st = None -> none_ending st -> prob_step (look st) d acts = prob_step st d acts.
Proof. exact look_same. Qed.

(** In its last step, an appliance that was read is not started again and one that was
    not read may be. *)
Theorem C114_look_refuted : exists own l st d acts st1 st2 h j x1 x2, home_run own l st /\ p_seen st = None /\ fair d /\ counts_of 1 acts /\
  prob_step st d acts = Ok st1 /\ prob_step (look st) d acts = Ok st2 /\ at2 (s_left (p_base st1)) h j x1 /\ at2 (s_left (p_base st2)) h j x2 /\ (x1 == 3)%Q /\ (x2 == 0)%Q.
Proof.
  exists all5, [Step zero_draws (doing 1 0 0); Step zero_draws (doing 1 0 0); Step zero_draws (doing 1 0 0)]. eexists. exists zero_draws, (doing 1 0 0). eexists. eexists. exists 0, 0. eexists. eexists.
  split. { apply home_reached; [reflexivity|home_steps|vm_compute; reflexivity]. }
  split; [reflexivity|]. split; [apply zero_fair|]. split; [apply doing_counts; lia|]. split; [vm_compute; reflexivity|]. split; [vm_compute; reflexivity|].
  split; [eexists; split; reflexivity|]. split; [eexists; split; reflexivity|]. split; reflexivity.
Qed.

(** What is read after a step: in use where owned with time left; nothing is read in
    households without the appliance. *)
Theorem C114_reading : forall st h j v, current st -> sees (p_base st) h j v ->
  (at2 (usage_read st) h j true <-> v_own v = true /\ (0 < v_left v)%Q) /\
  forall P, prob_power st = Ok P -> exists p, at2 P h j p /\
    (v_own v = false -> p == 0)%Q /\ (v_own v = true -> v_left v <= 0 -> p == ap_standby (v_app v))%Q /\
    (v_own v = true -> 0 < v_left v -> ap_variable (v_app v) = false -> p == ap_power (v_app v))%Q.
Proof. exact reading. Qed.

(** Right after the construction the usage read is that of a moment in which everything
    was off. *)
Theorem C114_first_refuted : exists own st h j v, home_run own [] st /\ sees (p_base st) h j v /\ v_own v = true /\ (0 < v_left v)%Q /\ at2 (usage_read st) h j false.
Proof.
  exists all5. eexists. exists 0, 4. eexists (View _ _ _ _ _ _). split. { apply home_reached; [reflexivity|home_steps|vm_compute; reflexivity]. }
  split; [cell|]. split; [reflexivity|]. split; [vm_compute; reflexivity|]. eexists. split; reflexivity.
Qed.

Example C114_example : match bind (home all5 idle_acts) (fun st => prob_run st [Step zero_draws (doing 1 0 0)]) with Ok st => (usage_read st, match prob_power st with Ok P => map (map Qred) P | Err _ => [] end) | Err _ => ([], []) end =
  ([[true; false; false; false; true]], [[500; 2; 0; 0; 30]])%Q.
Proof. vm_compute. reflexivity. Qed.

(** ** C115: when steps are defined *)

Theorem C115_defined : forall n st af fo f d acts, wellformed n st af fo -> flowing (s_apps (p_base st)) -> (forall U, p_seen st = Some U -> shaped n (length (s_apps (p_base st))) U) ->
  one_follower fo f -> fair d -> counts_of n acts -> counts_of n (p_prev st) -> (forall act j, mentions acts act -> at_ (p_related st) j act -> mentions (p_prev st) act) ->
  exists st', prob_step st d acts = Ok st'.
Proof. exact step_defined. Qed.

(** Runs never fail when the activities of the appliances are in all steps or in none. *)
Theorem C115_runs : forall n step apps related af fo f hh_types groups own algo sw fu p1 p2 start wait acts0 st0 l,
  constructed n step apps related af fo hh_types groups own algo sw fu p1 p2 start wait acts0 st0 -> flowing apps -> one_follower fo f ->
  fair_run n l -> steady related (acts0 :: inputs l) -> exists st, prob_run st0 l = Ok st.
Proof. exact runs_defined. Qed.

Theorem C115_left_out : forall n st af fo f d acts act j, wellformed n st af fo -> flowing (s_apps (p_base st)) -> (forall U, p_seen st = Some U -> shaped n (length (s_apps (p_base st))) U) ->
  one_follower fo f -> fair d -> counts_of n acts -> counts_of n (p_prev st) ->
  mentions acts act -> at_ (p_related st) j act -> ~ mentions (p_prev st) act -> (forall act' i, mentions acts act' -> at_ (p_related st) i act' -> act' <> act -> mentions (p_prev st) act') ->
  prob_step st d acts = Err KeyError.
Proof. exact left_out. Qed.

(** With two appliances that follow others every step in which nothing stops fails. *)
Theorem C115_two_followers : forall n st af fo d acts j1 j2 s1 s2, wellformed n st af fo -> j1 <> j2 -> at_ fo j1 s1 -> at_ fo j2 s2 -> s1 <> "nan"%string -> s2 <> "nan"%string ->
  (forall h j v, sees (p_base st) h j v -> (v_left v <= 0 \/ 1 < v_left v)%Q) -> prob_step st d acts = Err ValueError.
Proof. exact two_followers. Qed.

(** Without any the steps in which something stops fail. *)
Theorem C115_no_follower : forall n st af fo d acts h j v, wellformed n st af fo -> (forall i s, at_ fo i s -> s = "nan"%string) ->
  sees (p_base st) h j v -> (0 < v_left v <= 1)%Q -> exists e, prob_step st d acts = Err e.
Proof. exact no_follower. Qed.

(** The dictionary must have both columns. *)
Theorem C115_columns : forall step apps related af fo hh_types groups own algo sw fu p1 p2 start wait acts, af = None \/ fo = None ->
  make_prob step apps related af fo hh_types groups own algo sw fu p1 p2 start wait acts = Err KeyError.
Proof. exact columns_needed. Qed.

Definition plain (follows : list string) (l : list action) : result probsim :=
  bind (make_prob 315576 [washer; dryer] ["laundry"; "laundry"]%string (Some ["nan"; "nan"]%string) (Some follows) [0] [GroupData None (Ok [10; 5]%Q) [("laundry"%string, [1]%Q)] [("laundry"%string, [1]%Q)]] [[true; true]]
     Nothing (Ok []) (Ok []) (fun _ _ => 0) (fun _ _ => 0) (fun _ _ => 0) (fun _ _ => 0%Z) [("laundry"%string, [0%Z])]) (fun st => prob_run st l).
Example C115_example :
  map (fun x : list string * nat => match plain (fst x) (repeat (Step zero_draws [("laundry"%string, [1%Z])]) (snd x)) with Ok st => Ok (map (map Qred) (s_left (p_base st))) | Err e => Err e end)
    [(["nan"; "washer"]%string, 4); (["dryer"; "washer"]%string, 1); (["nan"; "nan"]%string, 2); (["nan"; "nan"]%string, 3)] =
  [Ok [[3; 2]]; Err ValueError; Ok [[2; 1]]; Err IndexError]%Q.
Proof. vm_compute. reflexivity. Qed.

(** ** C116: probabilities to start *)

Theorem C116_values : forall step apps related af fo hh_types groups m, tabled apps related af fo groups ->
  sample_switch_on_probs step apps related (Some af) (Some fo) hh_types groups = Ok m ->
  forall h j g a r s t, in_group hh_types groups h g -> at_ apps j a -> at_ related j r -> at_ af j s -> at_ fo j t ->
    exists ts x, g_targets g = Ok ts /\ at_ ts j x /\
      (In t (map ap_type apps) -> exists c, at2 m h j c /\ quotient x (targets_of (map ap_type apps) ts t) c) /\
      (~ In t (map ap_type apps) ->
         (forall prob, In (s, prob) (g_probs g) -> r = s \/ ~ In r (map fst (g_probs g)) ->
            exists pdf c, dget String.eqb (g_starts g) s = Some pdf /\ at2 m h j c /\
              quotient x ((36525 # 100) * expected pdf * match g_residents g with None => 23 # 10 | Some q => q end) c) /\
         (forall prob mu year, In (r, prob) (g_probs g) -> ~ In s (map fst (g_probs g)) -> average prob mu -> ~ (step == 0)%Q -> (year * step == seconds_of_year)%Q ->
            exists p, at2 m h j (Fin p) /\ (1 <= year * mu - ap_duration a * x -> p * (year * mu - ap_duration a * x) == x)%Q /\
              (year * mu - ap_duration a * x < 1 -> p == x)%Q) /\
         (~ In r (map fst (g_probs g)) -> ~ In s (map fst (g_probs g)) -> at2 m h j (Fin 0))).
Proof. exact probs_value. Qed.

Theorem C116_defined : forall step apps related af fo hh_types groups,
  (forall g, In g groups -> (exists ts, g_targets g = Ok ts) /\ forall act, In act (map fst (g_probs g)) -> exists pdf, dget String.eqb (g_starts g) act = Some pdf) ->
  exists m, sample_switch_on_probs step apps related (Some af) (Some fo) hh_types groups = Ok m.
Proof. exact probs_defined. Qed.

(** The numbers called probabilities can be above 1: the target cannot be reached then. *)
Theorem C116_range_refuted : exists own st h j p, home_run own [] st /\ at2 (p_probs st) h j (Fin p) /\ (1 < p)%Q.
Proof.
  exists all5. eexists. exists 0, 3. eexists. split. { apply home_reached; [reflexivity|home_steps|vm_compute; reflexivity]. }
  split; [eexists; split; reflexivity|reflexivity].
Qed.

(** When both the related and the previous activity are known, the order of the
    activities in the data decides. *)
Theorem C116_order_refuted : exists step apps related af fo hh_types r x ps ps' ss m m' h j c c',
  (forall k, In k ps <-> In k ps') /\ sample_switch_on_probs step apps related (Some af) (Some fo) hh_types [GroupData r (Ok x) ps ss] = Ok m /\
  sample_switch_on_probs step apps related (Some af) (Some fo) hh_types [GroupData r (Ok x) ps' ss] = Ok m' /\ at2 m h j (Fin c) /\ at2 m' h j (Fin c') /\ ~ (c == c')%Q.
Proof.
  exists 315576%Q, [cooker], ["cooking"%string], ["eating"%string], ["nan"%string], [0], (Some 2%Q), [10%Q], [("cooking", [1#2]); ("eating", [1#2])]%Q%string, [("eating", [1#2]); ("cooking", [1#2])]%Q%string,
    [("eating", [0; 1]); ("cooking", [0; 1])]%Q%string. eexists. eexists. exists 0, 0. eexists. eexists.
  split; [intro k; simpl; tauto|]. split; [vm_compute; reflexivity|]. split; [vm_compute; reflexivity|]. split; [eexists; split; reflexivity|]. split; [eexists; split; reflexivity|]. vm_compute. discriminate.
Qed.

Example C116_example : match home all5 idle_acts with Ok st => map (map (fun c => match c with Fin q => Some (Qred q) | _ => None end)) (p_probs st) | Err _ => [] end =
  [[Some (1 # 2); Some (1 # 2); Some (146 # 1461); Some 8; Some 0]]%Q.
Proof. vm_compute. reflexivity. Qed.

(** ** C117: which appliances are simulated *)

Theorem C117_kept : forall related probabilistic keys j r, at_ related j r -> (forall p, probabilistic = Some p -> length p = length related) ->
  exists b, at_ (fst (prob_compatible related probabilistic keys)) j b /\
    (b = true <-> (In r keys \/ whole_day r) /\ forall p, probabilistic = Some p -> at_ p j true).
Proof. exact prob_kept. Qed.

(** Together with the simulator driven by the activities alone, each appliance is
    simulated once, if both read the dictionary as it was. *)
Theorem C117_split : forall related p keys j r, at_ related j r -> length p = length related ->
  exists b b', at_ (fst (prob_compatible related (Some p) keys)) j b /\ at_ (compatible_mask related (Some p) keys) j b' /\
    (In r keys \/ whole_day r -> b' = negb b) /\ (~ (In r keys \/ whole_day r) -> b = false /\ b' = false).
Proof. exact prob_split. Qed.

(** But the dictionary given is changed: whoever reads it after that gets the other
    appliances. *)
Theorem C117_left : forall related p keys, snd (prob_compatible related (Some p) keys) = map negb p.
Proof. reflexivity. Qed.
Theorem C117_again_refuted : exists related p keys, length p = length related /\
  fst (prob_compatible related (Some (snd (prob_compatible related (Some p) keys))) keys) <> fst (prob_compatible related (Some p) keys).
Proof. exists ["cooking"; "laundry"]%string, [true; false], ["cooking"; "laundry"]%string. split; [reflexivity|]. vm_compute. discriminate. Qed.

Example C117_example : prob_compatible ["cooking"; "laundry"; "level"; "music"]%string (Some [true; false; true; true]) ["cooking"; "laundry"]%string =
  ([true; false; true; false], [false; true; false; false]).
Proof. vm_compute. reflexivity. Qed.

Print Assumptions C110_running.
Print Assumptions C110_reached.
Print Assumptions C111_idle.
Print Assumptions C111_only.
Print Assumptions C111_unowned_refuted.
Print Assumptions C112_stops_partial.
Print Assumptions C113_runs_out.
Print Assumptions C114_look_partial.
Print Assumptions C114_reading.
Print Assumptions C115_runs.
Print Assumptions C115_two_followers.
Print Assumptions C116_values.
Print Assumptions C117_split.
