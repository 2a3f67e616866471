(** * C08-C11: step counting, logger, cached getters. *)

From Coq Require Import String List ZArith QArith Bool Lia Lqa Arith.
From Verif Require Import Prelude SpecBase Base_Model Base_Spec Base_Proofs.
Import ListNotations.

(** ** C08 *)

Theorem C08_step_counting : forall S A (pre post : A -> nat -> S -> result S) raw is_cached,
  forall z a x y args x',
  initialize pre post raw is_cached (StartInt z) a x = Ok y ->
  run pre post raw is_cached args y = Ok x' ->
  (0 <= z)%Z /\ Z.of_nat (ctr y) = z /\ Z.of_nat (ctr x') = (z + Z.of_nat (length args))%Z /\
  reaches _ _ (body pre post) (repeat a (Z.to_nat z)) 0 (st x) (Z.to_nat z) (st y) /\
  reaches _ _ (body pre post) args (Z.to_nat z) (st y) (ctr x') (st x').
Proof. exact step_counting. Qed.
Print Assumptions C08_step_counting.

Theorem C08_bad_start_rejected : forall S A (pre post : A -> nat -> S -> result S) raw is_cached a x,
  initialize pre post raw is_cached StartOther a x = Err TypeError /\
  (forall z, (z < 0)%Z -> initialize pre post raw is_cached (StartInt z) a x = Err ValueError).
Proof. exact initialize_errors. Qed.
Print Assumptions C08_bad_start_rejected.

(** The constructor takes a positive number of households and nothing else. *)
Theorem C08_households : forall n k,
  (simulator_check n = Ok k <-> n = Some (Z.of_nat k) /\ (0 < k)%nat) /\
  (simulator_check n = Err TypeError <-> n = None) /\
  (simulator_check n = Err ValueError <-> exists z, n = Some z /\ (z <= 0)%Z).
Proof.
  intros [z|] k; unfold simulator_check; [destruct (Z.leb_spec z 0) as [H|H]|]; (split; [|split]); split; intro E;
    try discriminate; try reflexivity.
  - destruct E as [E Hk]. injection E as ->. lia.
  - exists z. auto.
  - injection E as <-. split; [f_equal; lia|lia].
  - destruct E as [E Hk]. injection E as ->. f_equal. lia.
  - destruct E as (z' & E & Hz). injection E as <-. lia.
  - destruct E as [E _]. discriminate.
  - destruct E as (z & E & _). discriminate.
Qed.
Print Assumptions C08_households.

Definition ex_log : logger :=
  match logger_init ["occupants"; "current_time_step"]%string (AggList [false; true]) with
  | Ok l => l | Err _ => mkLogger [] [] [] 0 end.
Definition ex_sim : sim (list Q) := mkSim [1; 2] 0 [] (Some ex_log).

Example C08_example : exists y x',
  initialize example_pre no_post example_raw (fun _ => false) (StartInt 2) ([1; 0], [0; 1]) ex_sim = Ok y /\
  run example_pre no_post example_raw (fun _ => false) [([1; 1], [0; 0]); ([0; 0], [2; 0])] y = Ok x' /\
  ctr x' = 4%nat.
Proof. do 2 eexists. conj_vm. Qed.

(** ** C09 *)

(** For an attribute evaluating to an array or number, of a simulator that
    updates its state before the base step. *)
Theorem C09_logger_aligned : forall S A (pre post : A -> nat -> S -> result S) raw is_cached
  (post_id : forall a c s, post a c s = Ok s),
  forall z a x y l args x' b g,
  coherent raw (mkSim (st x) 0 (cache x) (lg x)) -> lg x = Some l -> well_formed l -> logs l b g ->
  initialize pre post raw is_cached (StartInt z) a x = Ok y ->
  run pre post raw is_cached args y = Ok x' ->
  (forall s c v, raw s c b = Ok v -> exists w, v = VS w) ->
  exists l' out, lg x' = Some l' /\ logger_get l' (Some b) = Ok (CList out) /\ length out = length args /\
  forall j w, at_ out j w -> exists s' v,
    reaches _ _ (body pre post) (firstn j args) (Z.to_nat z) (st y) (Z.to_nat z + j) s' /\
    raw s' (Z.to_nat z + j)%nat b = Ok (VS v) /\ kept g v w.
Proof. exact logger_aligned. Qed.
Print Assumptions C09_logger_aligned.

(** For an attribute evaluating to a dictionary: the same for each of its keys. *)
Theorem C09_logger_aligned_dict : forall S A (pre post : A -> nat -> S -> result S) raw is_cached
  (post_id : forall a c s, post a c s = Ok s),
  forall z a x y l args x' b g k,
  coherent raw (mkSim (st x) 0 (cache x) (lg x)) -> lg x = Some l -> well_formed l -> logs l b g ->
  initialize pre post raw is_cached (StartInt z) a x = Ok y ->
  run pre post raw is_cached args y = Ok x' ->
  (forall s c v, raw s c b = Ok v -> exists d, v = VD d /\ NoDup (map fst d) /\ dget String.eqb d k <> None) ->
  exists l' d out, lg x' = Some l' /\ logger_get l' (Some b) = Ok (CDict d) /\
  dget String.eqb d k = Some out /\ length out = length args /\
  forall j w, at_ out j w -> exists s' e v,
    reaches _ _ (body pre post) (firstn j args) (Z.to_nat z) (st y) (Z.to_nat z + j) s' /\
    raw s' (Z.to_nat z + j)%nat b = Ok (VD e) /\ dget String.eqb e k = Some v /\ kept g v w.
Proof. exact logger_aligned_dict. Qed.
Print Assumptions C09_logger_aligned_dict.

(** Loggers built from distinct names, and the copies made by the simulators'
    constructor, meet the hypothesis. *)
Theorem C09_constructed_loggers : forall names agg l,
  NoDup names -> logger_init names agg = Ok l ->
  well_formed l /\ (forall l', logger_copy l = Ok l' -> well_formed l').
Proof.
  intros names agg l Hnd H. destruct (logger_init_wf _ _ _ Hnd H) as [Hw _].
  split; [exact Hw|]. intros l' Hl'. eapply logger_copy_wf; eauto.
Qed.
Print Assumptions C09_constructed_loggers.

(** A boolean aggregation flag applies to all attributes but the clock. *)
Theorem C09_aggregation_flags : forall names agg l a g,
  logger_init names agg = Ok l -> logs l a g ->
  match agg with
  | AggBool b => g = if String.eqb a "current_time" then false else b
  | AggList bs => exists i, at_ names i a /\ at_ bs i g
  | AggOther => False
  end.
Proof. exact logger_init_flags. Qed.
Print Assumptions C09_aggregation_flags.

(** Naming an attribute twice breaks the alignment: two entries per step. *)
Theorem C09_repeated_attribute_refuted : exists l y x' l' out,
  logger_init ["occupants"; "occupants"]%string (AggBool true) = Ok l /\
  initialize example_pre no_post example_raw (fun _ => false) (StartInt 0) ([], []) (mkSim [1; 2] 0 [] (Some l)) = Ok y /\
  run example_pre no_post example_raw (fun _ => false) [([1; 1], [0; 0])] y = Ok x' /\
  lg x' = Some l' /\ logger_get l' (Some "occupants"%string) = Ok (CList out) /\ length out = 3%nat.
Proof. do 5 eexists. conj_vm. Qed.
Print Assumptions C09_repeated_attribute_refuted.

Example C09_example : exists y x' l',
  initialize example_pre no_post example_raw (fun _ => false) (StartInt 1) ([1; 0], [0; 1]) ex_sim = Ok y /\
  run example_pre no_post example_raw (fun _ => false) [([1; 1], [0; 0]); ([0; 0], [2; 0])] y = Ok x' /\
  lg x' = Some l' /\ well_formed ex_log /\ logs ex_log "occupants" false /\
  logger_get l' (Some "occupants"%string) = Ok (CList [SArr [2; 1]; SArr [3; 2]]) /\
  logger_get l' (Some "current_time_step"%string) = Ok (CList [SNum 1; SNum 2]).
Proof.
  do 3 eexists. split; [vm_compute; reflexivity|]. split; [vm_compute; reflexivity|].
  split; [reflexivity|]. split.
  { destruct (logger_init_wf ["occupants"; "current_time_step"]%string (AggList [false; true]) ex_log) as [H _]; auto.
    repeat constructor; simpl; intuition discriminate. }
  split; [exists 0%nat; split; reflexivity|]. conj_vm.
Qed.

(** ** C10 *)

Theorem C10_clear_all : forall x, exists y, logger_clear x ClearAll = Ok y /\
  attrs y = attrs x /\ aggregated y = aggregated x /\ log_len y = 0%nat /\
  (forall a, In a (attrs x) -> no_data y a).
Proof. exact clear_all_spec. Qed.
Print Assumptions C10_clear_all.

Theorem C10_clear_one : forall x a,
  (~ In a (attrs x) -> logger_clear x (ClearOne a) = Err ValueError) /\
  (In a (attrs x) -> exists y, logger_clear x (ClearOne a) = Ok y /\
    attrs y = attrs x /\ aggregated y = aggregated x /\ no_data y a /\
    forall b, b <> a -> dget String.eqb (store y) b = dget String.eqb (store x) b).
Proof. exact clear_one_spec. Qed.
Print Assumptions C10_clear_one.

Theorem C10_clear_list : forall names x y, logger_clear x (ClearList names) = Ok y ->
  attrs y = attrs x /\ log_len y = 0%nat /\
  (forall a, In a names -> no_data y a) /\
  (forall b, ~ In b names -> dget String.eqb (store y) b = dget String.eqb (store x) b).
Proof. exact clear_list_spec. Qed.
Print Assumptions C10_clear_list.

Theorem C10_add : forall x y, NoDup (map fst (store y)) ->
  (log_len x <> log_len y -> logger_add x y = Err ValueError) /\
  (log_len x = log_len y -> exists w, logger_add x y = Ok w /\
    attrs w = attrs x ++ attrs y /\ aggregated w = aggregated x ++ aggregated y /\ log_len w = log_len x /\
    (forall a c, dget String.eqb (store y) a = Some c -> dget String.eqb (store w) a = Some c) /\
    (forall a, dget String.eqb (store y) a = None -> dget String.eqb (store w) a = dget String.eqb (store x) a) /\
    (forall a c, In a (attrs x) -> logger_get x (Some a) = Ok c ->
        dget String.eqb (store y) a = None -> logger_get w (Some a) = Ok c) /\
    (forall a c, In a (attrs y) -> logger_get y (Some a) = Ok c -> logger_get w (Some a) = Ok c)).
Proof. exact logger_add_spec. Qed.
Print Assumptions C10_add.

Theorem C10_copy : forall x, length (aggregated x) = length (attrs x) ->
  exists y, logger_copy x = Ok y /\ attrs y = attrs x /\ aggregated y = aggregated x /\
  log_len y = log_len x /\ (forall a, In a (attrs x) -> no_data y a).
Proof. exact logger_copy_spec. Qed.
Print Assumptions C10_copy.

(** A logger that has seen one visit of the example simulator. *)
Definition ex_visited : logger :=
  match visit example_raw (fun _ => false) ex_sim with
  | Ok y => match lg y with Some l => l | None => ex_log end
  | Err _ => ex_log
  end.

(** The length of a logger is not the number of its records: clearing one
    attribute resets the length although the other attribute keeps its records, *)
Theorem C10_length_after_clear_one_refuted : exists y,
  log_len ex_visited = 1%nat /\ n_records ex_visited "occupants" 1 /\
  logger_clear ex_visited (ClearOne "current_time_step") = Ok y /\
  log_len y = 0%nat /\ n_records y "occupants" 1.
Proof.
  eexists. conj_vm; eexists; conj_vm.
Qed.
Print Assumptions C10_length_after_clear_one_refuted.

(** and a copy keeps the length of the original although it has no records, so
    that adding it to the original is not refused. *)
Theorem C10_length_of_copy_refuted : exists y w,
  logger_copy ex_visited = Ok y /\ log_len y = 1%nat /\ n_records y "occupants" 0 /\
  logger_add ex_visited y = Ok w.
Proof.
  do 2 eexists. conj_vm; eexists; conj_vm.
Qed.
Print Assumptions C10_length_of_copy_refuted.

Example C10_example :
  NoDup (map fst (store ex_visited)) /\ length (aggregated ex_visited) = length (attrs ex_visited) /\
  n_records ex_visited "occupants" 1 /\ In "occupants"%string (attrs ex_visited).
Proof.
  split; [vm_compute; repeat constructor; simpl; intuition discriminate|].
  split; [reflexivity|]. split; [eexists; conj_vm|left; reflexivity].
Qed.

(** ** C11 *)

(** Every value returned by a getter call, in every sequence of getter calls and
    steps, is the one the undecorated getter would return in a simulator without
    logger; the state evolves identically. *)
Theorem C11_cache_transparent : forall S A (pre post : A -> nat -> S -> result S) raw is_cached
  (post_id : forall a c s, post a c s = Ok s),
  forall ops x outs x', coherent raw x ->
  match lg x with Some l => well_formed l | None => True end ->
  exec pre post raw is_cached ops x = Ok (outs, x') ->
  exists y', exec pre post raw (fun _ => false) ops (mkSim (st x) (ctr x) [] None) = Ok (outs, y') /\
    st y' = st x' /\ ctr y' = ctr x'.
Proof. exact exec_transparent. Qed.
Print Assumptions C11_cache_transparent.

(** Conversely, without a logger, decorating the getters never makes a call fail. *)
Theorem C11_cache_never_fails : forall S A (pre post : A -> nat -> S -> result S) raw is_cached
  (post_id : forall a c s, post a c s = Ok s),
  forall ops x outs y', coherent raw x -> lg x = None ->
  exec pre post raw (fun _ => false) ops (mkSim (st x) (ctr x) [] None) = Ok (outs, y') ->
  exists x', exec pre post raw is_cached ops x = Ok (outs, x') /\ st x' = st y' /\ ctr x' = ctr y'.
Proof. exact exec_transparent_complete. Qed.
Print Assumptions C11_cache_never_fails.

(** When the state changes after the base step (the order used by
    SparseStatesSimulator.step), attaching a logger makes a cached getter return
    the value from before the step. *)
Definition late_post (a : list Q * list Q) (c : nat) (s : list Q) := example_pre a c s.

Theorem C11_late_update_refuted : exists ops x outs outs' x' x'',
  coherent example_raw x /\ (forall l, lg x = Some l -> well_formed l) /\
  exec no_post late_post example_raw (fun _ => true) ops x = Ok (outs, x') /\
  exec no_post late_post example_raw (fun _ => true) ops (mkSim (st x) (ctr x) (cache x) None) = Ok (outs', x'') /\
  outs <> outs'.
Proof.
  exists [OStep ([1; 1], [0; 0]); OGet _ "occupants" None], ex_sim.
  do 4 eexists. split; [intros n v H; discriminate|]. split.
  { intros l Hl. injection Hl as <-.
    destruct (logger_init_wf ["occupants"; "current_time_step"]%string (AggList [false; true]) ex_log) as [H _]; auto.
    repeat constructor; simpl; intuition discriminate. }
  split; [vm_compute; reflexivity|]. split; [vm_compute; reflexivity|]. vm_compute. discriminate.
Qed.
Print Assumptions C11_late_update_refuted.

Example C11_example : exists outs x',
  exec example_pre no_post example_raw (fun _ => true)
    [OGet _ "occupants" None; OStep ([1; 1], [0; 0]); OGet _ "occupants" (Some 1%nat); OGet _ "occupants" None] ex_sim
  = Ok (outs, x') /\ outs = [VS (SArr [1; 2]); VS (SNum 3); VS (SArr [2; 3])].
Proof. do 2 eexists. conj_vm. Qed.
