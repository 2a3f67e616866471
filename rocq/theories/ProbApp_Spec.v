(** * Vocabulary for the statements about appliances started at random. *)

From Coq Require Import String List ZArith QArith Bool Arith.
From Verif Require Import Prelude SpecBase Appliance_Model Appliance_Spec AppSetup_Model AppSetup_Spec ActApp_Model ActApp_Spec ProbApp_Model.
Import ListNotations.
Local Open Scope nat_scope.

(** The columns of a simulator of [n] households that was constructed. *)
Definition wellformed (n : nat) (st : probsim) (after follows : list string) : Prop :=
  let k := length (s_apps (p_base st)) in
  simulates n (p_base st) /\ length (p_related st) = k /\ p_after st = Some after /\ length after = k /\
  p_follows st = Some follows /\ length follows = k /\ shaped n k (p_probs st).

(** The usage in the cache, if any, is the present one. *)
Definition current (st : probsim) : Prop := p_seen st = None \/ p_seen st = Some (get_current_usage (p_base st)).

(** Exactly one appliance follows another one. *)
Definition one_follower (follows : list string) (f : nat) : Prop :=
  f < length follows /\ forall j s, at_ follows j s -> (s <> "nan"%string <-> j = f).

(** The draw is below the probability. *)
Definition below (u : Q) (c : chance) : Prop := match c with Fin q => (u < q)%Q | Inf => True | Nan => False end.

(** Somebody performed the activity before and nobody does now. *)
Definition ends (before acts : list (string * list Z)) (act : string) (h : nat) : Prop :=
  performs acts act h 0 /\ exists c, c <> 0%Z /\ performs before act h c.

(** The three reasons to start. *)
Definition starts_by_activity (st : probsim) (d : pdraws) (acts : list (string * list Z)) (h j : nat) : Prop :=
  exists r c p, at_ (p_related st) j r /\ (0 < c)%Z /\ performs acts r h c /\ at2 (p_probs st) h j p /\ below (d_act d r h j) p /\
    (forall af, p_after st = Some af -> at_ af j "nan"%string) /\ (forall fo, p_follows st = Some fo -> at_ fo j "nan"%string).

Definition starts_after_activity (st : probsim) (d : pdraws) (acts : list (string * list Z)) (h j : nat) : Prop :=
  exists a p i, (exists af, p_after st = Some af /\ at_ af j a) /\ at_ (p_related st) i a /\ ends (p_prev st) acts a h /\
    at2 (p_probs st) h j p /\ below (d_after d a h j) p.

Definition starts_after_appliance (st : probsim) (d : pdraws) (h j : nat) : Prop :=
  exists t i w p, (exists fo, p_follows st = Some fo /\ at_ fo j t) /\ t <> "nan"%string /\ sees (p_base st) h i w /\ ap_type (v_app w) = t /\
    (0 < v_left w <= 1)%Q /\ at2 (p_probs st) h j p /\ below (d_follow d h i) p.

(** The activity of the appliance ends and it is one of those that stop then. *)
Definition forced_to_stop (st : probsim) (acts : list (string * list Z)) (h j : nat) : Prop :=
  exists r a, at_ (p_related st) j r /\ at_ (s_apps (p_base st)) j a /\ ap_off a = true /\ ends (p_prev st) acts r h.

(** A cycle that starts now: its length and the time till the next one. *)
Definition fresh_cycle (v w : view) : Prop :=
  same_static v w /\ v_refresh w = refresh_after (v_app v) (v_left w) /\
  (ap_variable (v_app v) = true -> v_left w == qn (v_dur v))%Q /\
  (ap_variable (v_app v) = false -> exists volume, cycle_length v volume (v_left w)).

(** Nothing but the passing of one step. *)
Definition goes_on (v w : view) : Prop :=
  same_static v w /\ down_Q (v_left v) (v_left w) /\ v_refresh w = down_Z (v_refresh v).

(** Switched off. *)
Definition halted (v w : view) : Prop :=
  same_static v w /\ (v_left w == 0)%Q /\ v_refresh w = ap_delay (v_app v).

(** Steps and readings of the usage in any order. *)
Inductive action : Type := Look | Step (d : pdraws) (acts : list (string * list Z)).
Definition prob_do (st : probsim) (x : action) : result probsim :=
  match x with Look => Ok (look st) | Step d acts => prob_step st d acts end.
Fixpoint prob_run (st : probsim) (l : list action) : result probsim :=
  match l with [] => Ok st | x :: t => bind (prob_do st x) (fun st1 => prob_run st1 t) end.

(** Draws are numbers from 0 to 1. *)
Definition fair (d : pdraws) : Prop :=
  (forall h j, 0 <= d_follow d h j < 1)%Q /\ (forall a h j, 0 <= d_after d a h j < 1)%Q /\ (forall a h j, 0 <= d_act d a h j < 1)%Q.

(** ** Probabilities *)

(** Average of a list of numbers. *)
Definition average (l : list Q) (m : Q) : Prop := l <> [] /\ (m * inject_Z (Z.of_nat (length l)) == total l)%Q.

(** Expected value of a distribution over 0, 1, 2, ... *)
Definition expected (pdf : list Q) : Q := total (map (fun i => inject_Z (Z.of_nat i) * nth i pdf 0) (seq 0 (length pdf)))%Q.

(** Sum of the targets of the appliances of a type. *)
Definition targets_of (types : list string) (targets : list Q) (t : string) : Q :=
  total (map snd (filter (fun k => String.eqb (fst k) t) (combine types targets))).

(** The quotient of two numbers as a float. *)
Definition quotient (a b : Q) (c : chance) : Prop :=
  (~ b == 0 -> exists p, c = Fin p /\ p * b == a)%Q /\ (b == 0 -> 0 < a -> c = Inf)%Q /\ (b == 0 -> a <= 0 -> c = Nan)%Q.

Definition seconds_of_year : Q := ((36525 # 100) * 86400)%Q.

(** The columns of a dictionary of [k] appliances and the data of the subgroups. *)
Definition tabled (apps : list app) (related after follows : list string) (groups : list group_data) : Prop :=
  length related = length apps /\ length after = length apps /\ length follows = length apps /\
  forall g, In g groups -> NoDup (map fst (g_probs g)) /\ forall ts, g_targets g = Ok ts -> length ts = length apps.

(** Household [h] is in the subgroup with the data [g]. *)
Definition in_group (hh_types : list nat) (groups : list group_data) (h : nat) (g : group_data) : Prop :=
  exists i, at_ hh_types h i /\ at_ groups i g.

(** A simulator of [n] households just constructed. *)
Definition constructed (n : nat) (step : Q) (apps : list app) (related after follows : list string) (hh_types : list nat) (groups : list group_data)
    (own : list (list bool)) (algo : profiles_algo) (switched full : result real_loads) (pick1 pick2 start : nat -> nat -> nat)
    (wait : nat -> nat -> Z) (acts : list (string * list Z)) (st : probsim) : Prop :=
  tabled apps related after follows groups /\ shaped n (length apps) own /\ length hh_types = n /\ counts_of n acts /\
  make_prob step apps related (Some after) (Some follows) hh_types groups own algo switched full pick1 pick2 start wait acts = Ok st.

(** Activities given to the steps of a run. *)
Definition inputs (l : list action) : list (list (string * list Z)) :=
  concat (map (fun x => match x with Look => [] | Step _ acts => [acts] end) l).
Definition fair_run (n : nat) (l : list action) : Prop := forall d acts, In (Step d acts) l -> fair d /\ counts_of n acts.

(** The activities related to appliances are in all steps or in none. *)
Definition steady (related : list string) (all : list (list (string * list Z))) : Prop :=
  forall acts acts' r j, In acts all -> In acts' all -> at_ related j r -> mentions acts r -> mentions acts' r.

(** Water comes out of the appliances that use water. *)
Definition flowing (apps : list app) : Prop := forall j a, at_ apps j a -> ap_water a = true -> ~ (ap_flow a == 0)%Q.

(** No owned appliance is in its last step. *)
Definition none_ending (st : probsim) : Prop := forall h j v, sees (p_base st) h j v -> v_own v = true -> (v_left v <= 0 \/ 1 < v_left v)%Q.
