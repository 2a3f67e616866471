(** * Appliances driven by activities: the properties. *)

From Coq Require Import String List ZArith QArith Bool Arith Lia Lqa.
From Verif Require Import Prelude PreludeFacts SpecBase SpecBaseFacts Parse_Model Appliance_Model Appliance_Spec AppSetup_Model AppSetup_Spec ActApp_Model ActApp_Spec.
From Verif Require Import Matrix_Proofs Appliance_Proofs Appliance_RunProofs Appliance_TypeProofs AppSetup_Proofs AppSetup_InitProofs ActApp_Proofs ActApp_RunProofs.
Import ListNotations.
Local Open Scope nat_scope.

(** ** C105: usage follows the activities *)

(** Appliances with 'inactive_switch_off': in use exactly where they are owned and
    somebody performs their activity in the last step. *)
Theorem C105_follows_partial : forall n apps related own algo sw fu p1 p2 start wait acts0 st0 l st,
  built n apps related own algo sw fu p1 p2 start wait acts0 st0 -> (forall acts, In acts l -> counts_of n acts) -> act_run st0 l = Ok st ->
  forall h j a r o c, at_ apps j a -> at_ related j r -> ap_off a = true -> ~ whole_day r -> at2 own h j o -> performs (last l acts0) r h c ->
    (at2 (act_usage st) h j true <-> o = true /\ (0 < c)%Z).
Proof. exact usage_follows. Qed.

(** The others: in use from the first step in which somebody performs it, for ever. *)
Theorem C105_sticks : forall n apps related own algo sw fu p1 p2 start wait acts0 st0 l st,
  built n apps related own algo sw fu p1 p2 start wait acts0 st0 -> (forall acts, In acts l -> counts_of n acts) -> act_run st0 l = Ok st ->
  forall h j a r o, at_ apps j a -> at_ related j r -> ap_off a = false -> ~ whole_day r -> at2 own h j o ->
    (at2 (act_usage st) h j true <-> o = true /\ exists acts c, In acts (acts0 :: l) /\ (0 < c)%Z /\ performs acts r h c).
Proof. exact usage_sticks. Qed.

(** Appliances of the whole day: in use all the time. *)
Theorem C105_whole_day : forall n apps related own algo sw fu p1 p2 start wait acts0 st0 l st,
  built n apps related own algo sw fu p1 p2 start wait acts0 st0 -> (forall acts, In acts l -> counts_of n acts) -> act_run st0 l = Ok st ->
  (forall acts r, In acts l -> whole_day r -> ~ mentions acts r) ->
  forall h j r o, at_ related j r -> whole_day r -> at2 own h j o -> at2 (act_usage st) h j o.
Proof. exact usage_whole_day. Qed.

(** The full claim, usage exactly while the activity is performed, fails without
    'inactive_switch_off'. *)
Definition tv := App "tv" 2 100 false 10 0 false 0 false 0 0.
Definition stove := App "stove" 1 1500 false 10 0 false 0 true 0 0.
Definition demo (l : list (list (string * list Z))) (acts0 : list (string * list Z)) : result actsim :=
  bind (make_activity [tv; stove] ["watching"; "cooking"]%string [[true; true]; [false; true]] Nothing (Ok []) (Ok []) (fun _ _ => 0) (fun _ _ => 0) (fun _ _ => 1) (fun _ _ => 0%Z) acts0)
       (fun st => act_run st l).

Theorem C105_follows_refuted : exists n apps related own algo sw fu p1 p2 start wait acts0 st0 l st h j a r,
  built n apps related own algo sw fu p1 p2 start wait acts0 st0 /\ (forall acts, In acts l -> counts_of n acts) /\ act_run st0 l = Ok st /\
  at_ apps j a /\ at_ related j r /\ ~ whole_day r /\ performs (last l acts0) r h 0 /\ at2 (act_usage st) h j true.
Proof.
  exists 1, [tv], ["watching"%string], [[true]], Nothing, (Ok []), (Ok []), (fun _ _ => 0), (fun _ _ => 0), (fun _ _ => 1), (fun _ _ => 0%Z), [("watching"%string, [1%Z])].
  eexists. exists [[("watching"%string, [0%Z])]]. eexists. exists 0, 0, tv, "watching"%string.
  assert (C : forall z, (0 <= z)%Z -> counts_of 1 [("watching"%string, [z])]).
  { intros z Hz. split; [repeat constructor; simpl; tauto|]. intros act l [E|[]]. injection E as _ <-. split; [reflexivity|]. repeat constructor. exact Hz. }
  split. { split; [reflexivity|]. split; [|split; [apply C; lia|vm_compute; reflexivity]]. split; [reflexivity|]. intros h row E. destruct h as [|[|h]]; [|discriminate E|discriminate E]. injection E as <-. reflexivity. }
  split. { intros acts [<-|[]]. apply C. lia. }
  split; [vm_compute; reflexivity|]. split; [reflexivity|]. split; [reflexivity|]. split; [intros [X|X]; discriminate|].
  split; [exists [0%Z]; split; reflexivity|]. eexists. split; reflexivity.
Qed.

(** Which appliances are simulated. *)
Theorem C105_kept : forall related probabilistic keys j r, at_ related j r ->
  (forall p, probabilistic = Some p -> length p = length related) ->
  exists b, at_ (compatible_mask related probabilistic keys) j b /\
    (b = true <-> (In r keys \/ whole_day r) /\ forall p, probabilistic = Some p -> at_ p j false).
Proof. exact kept_spec. Qed.

(** A step is defined when the activities that matter were in the last step too. *)
Theorem C105_step_defined : forall n st acts, formed n st -> counts_of n acts -> counts_of n (a_prev st) ->
  (forall act j, mentions acts act -> at_ (a_related st) j act -> mentions (a_prev st) act) -> exists st', act_step st acts = Ok st'.
Proof. exact step_defined. Qed.

(** Leaving an activity out of a step makes the step in which it comes back fail. *)
Theorem C105_left_out : forall n st acts act j, formed n st -> counts_of n acts -> counts_of n (a_prev st) ->
  mentions acts act -> at_ (a_related st) j act -> ~ mentions (a_prev st) act -> act_step st acts = Err KeyError.
Proof. exact step_left_out. Qed.

Example C105_example :
  map (fun l => match demo l [("watching", [0; 1]%Z); ("cooking", [0; 0]%Z)]%string with Ok st => Some (act_usage st) | Err _ => None end)
    [[]; [[("cooking", [1; 0]%Z); ("watching", [2; 0]%Z)]%string];
     [[("cooking", [1; 0]%Z); ("watching", [2; 0]%Z)]%string; [("cooking", [0; 3]%Z); ("watching", [0; 0]%Z)]%string];
     [[("cooking", [1; 0]%Z)]%string; [("cooking", [1; 0]%Z); ("watching", [0; 0]%Z)]%string]] =
  [Some [[false; false]; [false; false]]; Some [[true; true]; [false; false]]; Some [[true; false]; [false; true]]; None].
Proof. vm_compute. reflexivity. Qed.

(** ** C106: readings are always defined *)

Theorem C106_defined : forall n apps related own algo sw fu p1 p2 start wait acts0 st0 l st,
  built n apps related own algo sw fu p1 p2 start wait acts0 st0 ->
  (forall real, sw = Ok real \/ fu = Ok real -> at_least 1 real) -> starts (s_load_dur (a_base st0)) start ->
  (forall acts, In acts l -> counts_of n acts) -> act_run st0 l = Ok st ->
  exists P, act_power st = Ok P /\ shaped n (length apps) P.
Proof. exact readings_defined. Qed.

(** What is read: the stand-by power of owners when not in use, the mean power of
    appliances without profile in use. *)
Theorem C106_power : forall st P h j v b, cell st h j v b -> act_power st = Ok P ->
  exists p, at2 P h j p /\
    (v_own v = false -> p == 0)%Q /\
    (v_own v = true -> b = false -> p == ap_standby (v_app v))%Q /\
    (v_own v = true -> b = true -> ap_variable (v_app v) = false -> p == ap_power (v_app v))%Q.
Proof. exact power_cell. Qed.

Theorem C106_constructed : forall n apps related own algo switched full p1 p2 start wait acts,
  length related = length apps -> shaped n (length apps) own -> algo <> OtherAlgo ->
  picks (map ap_type apps) switched p1 -> picks (map ap_type apps) full p2 -> at_least 2 switched -> at_least 2 full -> counts_of n acts ->
  exists st, built n apps related own algo (Ok switched) (Ok full) p1 p2 start wait acts st.
Proof. exact construction_defined. Qed.

Example C106_example :
  match demo [[("cooking", [1; 0]%Z); ("watching", [2; 0]%Z)]%string; [("cooking", [0; 3]%Z); ("watching", [0; 0]%Z)]%string] [("watching", [0; 1]%Z); ("cooking", [0; 0]%Z)]%string with
  | Ok st => match act_power st with Ok P => map (map Qred) P | Err _ => [] end
  | Err _ => [] end = [[100; 1]; [0; 1500]]%Q.
Proof. vm_compute. reflexivity. Qed.

(** ** C107: position in the load profile *)

(** From the step in which the activity begins, the values of the profile are read one
    after the other, starting over at the end; the step of the beginning reads the
    second one. *)
Theorem C107_begins : forall n apps related own algo sw fu p1 p2 start wait acts0 st0 l0 st acts st1 l st2 P,
  built n apps related own algo sw fu p1 p2 start wait acts0 st0 ->
  (forall real, sw = Ok real \/ fu = Ok real -> at_least 1 real) -> starts (s_load_dur (a_base st0)) start ->
  (forall a, In a (List.app l0 (acts :: l)) -> counts_of n a) ->
  act_run st0 l0 = Ok st -> act_step st acts = Ok st1 -> act_run st1 l = Ok st2 -> act_power st2 = Ok P ->
  forall h j a r, at_ (s_apps (a_base st0)) j a -> ap_variable a = true -> at_ related j r ->
    begins (last l0 acts0) acts r h -> no_begin acts l r h -> at2 (act_usage st2) h j true ->
    forall d, at2 (s_load_dur (a_base st0)) h j d -> reads st2 P h j (S (length l) mod d).
Proof. exact begins_reads. Qed.

Theorem C107_initial : forall n apps related own algo sw fu p1 p2 start wait acts0 st0 l st P,
  built n apps related own algo sw fu p1 p2 start wait acts0 st0 ->
  (forall real, sw = Ok real \/ fu = Ok real -> at_least 1 real) -> starts (s_load_dur (a_base st0)) start ->
  (forall a, In a l -> counts_of n a) -> act_run st0 l = Ok st -> act_power st = Ok P ->
  forall h j a r c, at_ (s_apps (a_base st0)) j a -> ap_variable a = true -> at_ related j r ->
    (0 < c)%Z -> performs acts0 r h c -> no_begin acts0 l r h -> at2 (act_usage st) h j true ->
    forall d, at2 (s_load_dur (a_base st0)) h j d -> reads st P h j (S (length l) mod d).
Proof. exact initial_reads. Qed.

(** Appliances of the whole day go round their profile for ever. *)
Theorem C107_whole_day : forall n apps related own algo sw fu p1 p2 start wait acts0 st0 l st P,
  built n apps related own algo sw fu p1 p2 start wait acts0 st0 ->
  (forall real, sw = Ok real \/ fu = Ok real -> at_least 1 real) -> starts (s_load_dur (a_base st0)) start ->
  (forall a, In a l -> counts_of n a) -> (forall a r, In a (acts0 :: l) -> whole_day r -> ~ mentions a r) ->
  act_run st0 l = Ok st -> act_power st = Ok P ->
  forall h j a r, at_ (s_apps (a_base st0)) j a -> ap_variable a = true -> at_ related j r -> whole_day r -> at2 own h j true ->
    forall d, at2 (s_load_dur (a_base st0)) h j d -> reads st P h j ((d - start h j + S (length l)) mod d).
Proof. exact whole_day_reads. Qed.

Definition oven := App "oven" 1 1500 false 10 0 false 0 true 0 0.
Definition oven_run (l : list (list (string * list Z))) : result (list (list Q)) :=
  bind (make_activity [oven] ["cooking"%string] [[true]] OnlySwitchedOn (Ok [("oven"%string, [("o"%string, [10; 20; 30]%Q)])]) (Ok []) (fun _ _ => 0) (fun _ _ => 0) (fun _ _ => 1) (fun _ _ => 0%Z) [("cooking"%string, [0%Z])])
       (fun st => bind (act_run st l) act_power).

(** The first value of the profile is not the one read when the activity begins. *)
Theorem C107_first_refuted : exists n apps related own algo sw fu p1 p2 start wait acts0 st0 acts st1 P h j r,
  built n apps related own algo sw fu p1 p2 start wait acts0 st0 /\ counts_of n acts /\ act_step st0 acts = Ok st1 /\ act_power st1 = Ok P /\
  at_ related j r /\ begins acts0 acts r h /\ at2 (act_usage st1) h j true /\
  at2 P h j 20%Q /\ exists v, sees (a_base st1) h j v /\ stored_profile (a_base st1) v [10; 20; 30]%Q.
Proof.
  exists 1, [oven], ["cooking"%string], [[true]], OnlySwitchedOn, (Ok [("oven"%string, [("o"%string, [10; 20; 30]%Q)])]), (Ok []), (fun _ _ => 0), (fun _ _ => 0), (fun _ _ => 1), (fun _ _ => 0%Z), [("cooking"%string, [0%Z])].
  eexists. exists [("cooking"%string, [1%Z])]. eexists. eexists. exists 0, 0, "cooking"%string.
  assert (C : forall z, (0 <= z)%Z -> counts_of 1 [("cooking"%string, [z])]).
  { intros z Hz. split; [repeat constructor; simpl; tauto|]. intros act l [E|[]]. injection E as _ <-. split; [reflexivity|]. repeat constructor. exact Hz. }
  split. { split; [reflexivity|]. split; [|split; [apply C; lia|vm_compute; reflexivity]]. split; [reflexivity|]. intros h row E. destruct h as [|[|h]]; [|discriminate E|discriminate E]. injection E as <-. reflexivity. }
  split; [apply C; lia|]. split; [vm_compute; reflexivity|]. split; [vm_compute; reflexivity|]. split; [reflexivity|].
  split. { split; [exists [0%Z]; split; reflexivity|]. exists 1%Z. split; [lia|]. exists [1%Z]. split; reflexivity. }
  split; [eexists; split; reflexivity|]. split; [eexists; split; reflexivity|].
  eexists (View _ _ _ _ _ _). split; [split; [reflexivity|]; repeat (split; [eexists; split; reflexivity|]); eexists; split; reflexivity|].
  eexists. split; reflexivity.
Qed.

Example C107_example :
  map (fun k => match oven_run (repeat [("cooking"%string, [1%Z])] k) with Ok P => map (map Qred) P | Err _ => [] end) [0; 1; 2; 3; 4; 5] =
  [[[1]]; [[20]]; [[30]]; [[10]]; [[20]]; [[30]]]%Q.
Proof. vm_compute. reflexivity. Qed.

Print Assumptions C105_follows_partial.
Print Assumptions C105_sticks.
Print Assumptions C105_left_out.
Print Assumptions C106_defined.
Print Assumptions C107_begins.
Print Assumptions C107_whole_day.
