(** * Specification of what a step does to the sub-simulators. *)

From Coq Require Import String List ZArith QArith Bool Arith.
From Verif Require Import Prelude SpecBase Activity_Model Activity_Spec Time_Model Subgroup_Model Subgroup_Spec
  Switch_Model Switch_Spec Switch_IndSpec.
Import ListNotations.

(** ** Crest4StatesModel *)

(** Tables for every subgroup and both kinds of days. *)
Definition crest_tables (d : crest_data) : Prop :=
  forall r days, In r (cd_residents d) -> days = [1; 2; 3; 4; 5]%Z \/ days = [6; 7]%Z ->
    exists tpms labels pdf, cd_load d r days = Ok (tpms, labels, pdf) /\ fitting tpms labels pdf /\
      Z.of_nat (length labels) = ((r + 1) * (r + 1))%Z.

(** Residents and number of households of the sub-simulators. *)
Definition keys (x : crest_state) : list (Z * nat) := map (fun b => (b_key b, c_n (b_chain b))) (cs_subs x).

(** What one step does to a sub-simulator: its states move with matrix [k] of the
    tables of [days], then take the labels of the tables of [days'] when these are others. *)
Definition sub_moves (d : crest_data) (days days' : list Z) (k : nat) (v : nat -> Q) (b b' : sub Z Z) : Prop :=
  exists tpms labels pdf tpms' labels' pdf' m mid,
    cd_load d (b_key b) days = Ok (tpms, labels, pdf) /\ cd_load d (b_key b) days' = Ok (tpms', labels', pdf') /\
    b_key b' = b_key b /\ c_labels (b_chain b) = labels /\ c_labels (b_chain b') = labels' /\
    at_ tpms (k mod length tpms) m /\ moves m v (c_states (b_chain b)) mid /\
    ((days' = days /\ c_states (b_chain b') = mid) \/
     (days' <> days /\ relabelled labels labels' mid (c_states (b_chain b')))).

(** ** SubgroupsIndividualsActivitySimulator *)

Definition ind_flags (d : ind_data) : bool * bool * bool := (id_ends d, id_sat_sun d, id_7days d).

(** Tables for the persons as given, and with the date of any instant. *)
Definition ind_tables (d : ind_data) (kind : day_types) (persons : list (subgroup * nat)) : Prop :=
  forall g n, In (g, n) persons -> is_dict g /\ (0 < n)%nat /\
    (exists tpms labels pdf, id_load d g = Ok (tpms, labels, pdf) /\ fitting tpms labels pdf) /\
    forall t key, dated kind (id_quarters d) t g key ->
      exists tpms labels pdf, id_load d key = Ok (tpms, labels, pdf) /\ fitting tpms labels pdf.

(** What one step does to the sub-simulator of a person; [refreshes] tells whether the
    step begins at the refresh time. *)
Definition ind_moves (d : ind_data) (refreshes : Prop) (k : nat) (v : nat -> Q) (b b' : sub string subgroup) : Prop :=
  exists tpms labels pdf tpms' labels' pdf' m mid,
    id_load d (b_key b) = Ok (tpms, labels, pdf) /\ id_load d (b_key b') = Ok (tpms', labels', pdf') /\
    c_labels (b_chain b) = labels /\ c_labels (b_chain b') = labels' /\
    at_ tpms (k mod length tpms) m /\ moves m v (c_states (b_chain b)) mid /\
    ((id_aware d = true /\ refreshes /\ relabelled labels labels' mid (c_states (b_chain b'))) \/
     ((id_aware d = false \/ ~ refreshes) /\ b_key b' = b_key b /\ c_states (b_chain b') = mid)).
