(** * Properties of the start of an appliance simulation (C102-C104). *)

From Coq Require Import String List ZArith QArith Bool Arith Lia Lqa.
From Verif Require Import Prelude PreludeFacts SpecBase SpecBaseFacts Appliance_Model Appliance_Spec AppSetup_Model AppSetup_Spec.
From Verif Require Import Matrix_Proofs Appliance_Proofs Appliance_TypeProofs AppSetup_Proofs AppSetup_InitProofs.
Import ListNotations.
Local Open Scope nat_scope.

(** ** C102: who owns what *)

(** The households are numbered subgroup after subgroup. *)
Theorem C102_households : forall S (none : S) n subs counts subs' hh,
  parse_subgroups none n (Some subs) (Some counts) = Ok (subs', hh) ->
  subs' = subs /\ length hh = n /\ forall h i, at_ hh h i <-> belongs counts h i.
Proof.
  intros S none n subs counts subs' hh H. destruct (parse_ok _ _ _ _ _ _ _ H) as (A & B & C & ->). split; [exact A|]. split.
  - apply Nat2Z.inj. rewrite numbered_length by exact C. exact B.
  - intros h i. rewrite numbered_at by exact C. split; [intros (i' & -> & X); exact X|intro X; exists i; auto].
Qed.

Theorem C102_households_domain : forall S (none : S) n subs counts,
  (exists r, parse_subgroups none n (Some subs) (Some counts) = Ok r) <->
  total_Z counts = Z.of_nat n /\ Forall (fun c => 0 <= c)%Z counts /\ counts <> [].
Proof.
  intros S none n subs counts. split.
  - intros [[subs' hh] H]. destruct (parse_ok _ _ _ _ _ _ _ H) as (A & B & C & ->). repeat split; auto.
    intros ->. unfold parse_subgroups in H. destruct (negb _); discriminate.
  - intros (A & B & C). destruct (parse_total S none n subs counts A B C) as [hh E]. eauto.
Qed.

(** Without subgroups all households are of the same, unnamed one; one argument
    without the other is refused. *)
Theorem C102_households_other : forall S (none : S) n,
  (exists hh, parse_subgroups none n None None = Ok ([none], hh) /\ length hh = n /\ forall h i, at_ hh h i -> i = 0) /\
  (forall subs, parse_subgroups none n (Some subs) None = Err AttributeError) /\
  (forall counts, parse_subgroups none n None (Some counts) = Err AttributeError).
Proof.
  intros S none n. split; [|split; reflexivity]. exists (repeat 0 n). split; [reflexivity|]. split; [apply repeat_length|].
  intros h i E. apply nth_error_In in E. apply repeat_spec in E. exact E.
Qed.

(** 'basic': household [h] owns appliance [j] iff its draw is below the probability
    of the appliance. *)
Theorem C102_basic : forall u n equipped own, sample_available_appliances Basic u n equipped = Ok own ->
  shaped n (length equipped) own /\
  forall h j, at2 own h j true <-> h < n /\ exists p, at_ equipped j p /\ (u h j < p)%Q.
Proof.
  intros u n equipped own H. destruct (basic_at u n equipped own H) as [A B]. split; [exact A|]. intros h j. rewrite B. split.
  - intros (L & p & E & T). split; [exact L|]. exists p. split; [exact E|]. apply Qltb_lt. auto.
  - intros (L & p & E & T). split; [exact L|]. exists p. split; [exact E|]. symmetry. apply Qltb_lt. exact T.
Qed.

(** So with draws from [0, 1) an appliance of probability 0 is never owned, and one of
    probability 1 always. *)
Theorem C102_basic_certain : forall u n equipped own h j p, sample_available_appliances Basic u n equipped = Ok own ->
  (0 <= u h j < 1)%Q -> h < n -> at_ equipped j p -> ((p == 0)%Q -> at2 own h j false) /\ ((p == 1)%Q -> at2 own h j true).
Proof.
  intros u n equipped own h j p H U L E. destruct (basic_at u n equipped own H) as [A B]. split; intro P; apply B; split; auto; exists p; split; auto.
  - symmetry. apply Qltb_ge. rewrite P. apply U.
  - symmetry. apply Qltb_lt. rewrite P. apply U.
Qed.

Theorem C102_all : forall u n equipped own, sample_available_appliances AllApps u n equipped = Ok own ->
  shaped n (length equipped) own /\ forall h j, h < n -> j < length equipped -> at2 own h j true.
Proof. exact all_at. Qed.

Theorem C102_refused : forall u n equipped,
  sample_available_appliances Correlated u n equipped = Err NotImplementedError /\
  sample_available_appliances Unknown_algo u n equipped = Err ValueError.
Proof. split; reflexivity. Qed.

(** 'subgroup': the draw is compared with the probability of the household's
    subgroup; C67 says which entry of the dictionary that is. *)
Theorem C102_subgroup : forall S (none : S) n subs counts subs' hh u types defaults dicts own,
  parse_subgroups none n (Some subs) (Some counts) = Ok (subs', hh) ->
  sample_from_subgroup u types defaults dicts hh = Ok own ->
  shaped n (length types) own /\
  forall h j, at2 own h j true <-> exists i d probs p, belongs counts h i /\ at_ dicts i d /\
    get_ownership_from_dict types defaults d = Ok probs /\ at_ probs j p /\ (u h j < p)%Q.
Proof.
  intros S none n subs counts subs' hh u types defaults dicts own Hp H. destruct (C102_households _ _ _ _ _ _ _ Hp) as (_ & Ln & Hb).
  destruct (subgroup_at _ _ _ _ _ _ H) as [A B]. rewrite Ln in A. split; [exact A|]. intros h j. rewrite B. split.
  - intros (i & d & P & p & E1 & E2 & E3 & E4 & E5). exists i, d, P, p. rewrite <- Hb. repeat split; auto. apply Qltb_lt. auto.
  - intros (i & d & P & p & E1 & E2 & E3 & E4 & E5). exists i, d, P, p. rewrite Hb. repeat split; auto. symmetry. apply Qltb_lt. exact E5.
Qed.

(** It is defined when there is a dictionary for every subgroup; dictionaries beyond
    the counts are not used, and missing ones are an IndexError only if the subgroup
    has a household. *)
Theorem C102_subgroup_defined : forall S (none : S) n subs counts subs' hh u types defaults dicts,
  parse_subgroups none n (Some subs) (Some counts) = Ok (subs', hh) -> length defaults = length types ->
  (forall h i, belongs counts h i -> i < length dicts) -> exists own, sample_from_subgroup u types defaults dicts hh = Ok own.
Proof.
  intros S none n subs counts subs' hh u types defaults dicts Hp L Hd. destruct (C102_households _ _ _ _ _ _ _ Hp) as (_ & _ & Hb).
  apply subgroup_total; [exact L|]. intros h i E. apply Hb in E. eauto.
Qed.

Theorem C102_subgroup_missing : forall S (none : S) n subs counts subs' hh u types defaults dicts h i,
  parse_subgroups none n (Some subs) (Some counts) = Ok (subs', hh) ->
  belongs counts h i -> length dicts <= i -> forall own, sample_from_subgroup u types defaults dicts hh <> Ok own.
Proof.
  intros S none n subs counts subs' hh u types defaults dicts h i Hp Hb L own H. destruct (C102_households _ _ _ _ _ _ _ Hp) as (_ & _ & Hh).
  apply Hh in Hb. unfold sample_from_subgroup in H. destruct (mapM _ dicts) as [probs|] eqn:E1; [|discriminate]. cbn [bind] in H.
  destruct (mapM (vget probs) hh) as [avail|] eqn:E2; [|discriminate]. destruct (mapM_ok _ _ _ _ _ E2) as [_ M]. destruct (M h i Hb) as (row & _ & V).
  apply vget_ok in V. destruct (mapM_ok _ _ _ _ _ E1) as [Lp _]. assert (i < length probs); [|lia]. apply nth_error_Some. unfold at_ in V. congruence.
Qed.

(** 'set_defined': a household owns exactly the appliances named for its subgroup. *)
Theorem C102_set : forall S (none : S) n subs counts subs' hh names sets own,
  parse_subgroups none n (Some subs) (Some counts) = Ok (subs', hh) ->
  appliance_set names sets (length subs) hh = Ok own ->
  shaped n (length names) own /\
  forall h j b, at2 own h j b -> exists l i set name, sets = Some l /\ belongs counts h i /\ at_ l i set /\ at_ names j name /\ (b = true <-> In name set).
Proof.
  intros S none n subs counts subs' hh names sets own Hp H. destruct (C102_households _ _ _ _ _ _ _ Hp) as (_ & Ln & Hb).
  destruct (set_at _ _ _ _ _ H) as [A B]. rewrite Ln in A. split; [exact A|]. intros h j b E. apply B in E.
  destruct E as (i & l & set & name & E1 & E2 & E3 & E4 & E5 & ->). exists l, i, set, name. rewrite <- Hb. repeat split; auto; apply str_in_In.
Qed.

(** The default for the sets is refused with a TypeError, not with the message about
    the lists. *)
Theorem C102_set_none : forall names k hh, 0 < k -> appliance_set names None k hh = Err TypeError.
Proof. intros names k hh L. unfold appliance_set. destruct k; [lia|reflexivity]. Qed.

Example C102_example :
  parse_subgroups tt 5 (Some [tt; tt; tt]) (Some [2; 0; 3]%Z) = Ok ([tt; tt; tt], [0; 0; 2; 2; 2]) /\
  parse_subgroups tt 4 (Some [tt; tt; tt]) (Some [2; 0; 3]%Z) = Err ValueError /\
  sample_available_appliances Basic (fun h j => if h =? 0 then 1#2 else 3#4)%Q 2 [1#2; 6#10; 1]%Q = Ok [[false; true; true]; [false; false; true]] /\
  sample_from_subgroup (fun h j => 1#2)%Q ["tv"%string; "hob"%string] [1#4; 1]%Q [[("tv"%string, 1%Q)]; [("hob"%string, 0%Q)]] [0; 1; 1] =
    Ok [[true; true]; [false; false]; [false; false]] /\
  appliance_set ["tv"%string; "hob"%string] (Some [["hob"%string]; []; ["tv"%string; "hob"%string; "car"%string]]) 3 [0; 0; 2] =
    Ok [[false; true]; [false; true]; [true; true]].
Proof. conj_vm. Qed.

(** ** C103: load profiles *)

(** The appliances with a variable load are those whose type is in the data of their kind. *)
Theorem C103_variable : forall algo own types related switched full p1 p2 L, length related = length types ->
  sample_real_load_profiles algo own types related switched full p1 p2 = Ok L ->
  forall j t r, at_ types j t -> at_ related j r ->
    exists b, at_ (l_variable L) j b /\ (b = true <-> exists real, source algo switched full r real /\ known real t).
Proof. intros algo own types related switched full p1 p2 L Lr H. exact (proj2 (real_variable _ _ _ _ _ _ _ _ _ Lr H)). Qed.

(** A household that owns such an appliance has a profile of its type, its length and
    its values, followed by zeros. *)
Theorem C103_profile_partial : forall algo own types related switched full p1 p2 L h j t r,
  length related = length types ->
  sample_real_load_profiles algo own types related switched full p1 p2 = Ok L ->
  at_ types j t -> at_ related j r -> at2 own h j true -> at_ (l_variable L) j true ->
  (algo = Uniform -> ~ whole_day r -> ~ shares_type types related full t) ->
  exists id dur real, source algo switched full r real /\ assigned L h j id dur /\ follows real t (l_dict L) id dur.
Proof.
  intros algo own types related switched full p1 p2 L h j t r Lr H Et Er Ow V N.
  destruct (C103_variable _ _ _ _ _ _ _ _ _ Lr H j t r Et Er) as (b & Eb & I). assert (b = true) by (unfold at_ in *; congruence). subst b.
  assert (So : exists real, source algo switched full r real /\ known real t) by (apply I; reflexivity).
  destruct (real_profile _ _ _ _ _ _ _ _ _ h j t r H Et Er Ow So) as (id & dur & real & As & Fo & _ & S1 & S2 & S3).
  exists id, dur, real. split; [|split; assumption]. destruct So as (real0 & So & _).
  assert (Dec : algo = Uniform \/ algo <> Uniform) by (destruct algo; auto; right; discriminate). destruct Dec as [->|D]; [|auto].
  destruct So as [(W & _ & E)|(W & _ & E)]; [left|right]; repeat split; auto.
Qed.

(** Whatever the order of the passes, the stored number and duration are those of one
    profile of one of the two data sets. *)
Theorem C103_consistent : forall algo own types related switched full p1 p2 L h j t r,
  length related = length types ->
  sample_real_load_profiles algo own types related switched full p1 p2 = Ok L ->
  at_ types j t -> at_ related j r -> at2 own h j true -> at_ (l_variable L) j true ->
  exists id dur real, (switched = Ok real \/ full = Ok real) /\ assigned L h j id dur /\ follows real t (l_dict L) id dur.
Proof.
  intros algo own types related switched full p1 p2 L h j t r Lr H Et Er Ow V.
  destruct (C103_variable _ _ _ _ _ _ _ _ _ Lr H j t r Et Er) as (b & Eb & I). assert (b = true) by (unfold at_ in *; congruence). subst b.
  destruct (real_profile _ _ _ _ _ _ _ _ _ h j t r H Et Er Ow (proj1 I eq_refl)) as (id & dur & real & As & Fo & Src & _).
  exists id, dur, real. auto.
Qed.

(** The full statement fails: with 'uniform', the pass for the appliances of the whole
    day assigns its profiles to all appliances of the types it meets.  A kettle that is
    switched on, of the type of an appliance of the whole day, then follows a 'full'
    profile of five values, though the only 'switchedON' profile of its type has two. *)
Theorem C103_profile_refuted : exists own types related switched full p1 p2 L real,
  length related = length types /\ sample_real_load_profiles Uniform own types related (Ok switched) (Ok full) p1 p2 = Ok L /\
  picks types switched p1 /\ picks types full p2 /\
  at_ types 0 "kettle"%string /\ at_ related 0 "cooking"%string /\ at2 own 0 0 true /\ at_ (l_variable L) 0 true /\
  source Uniform (Ok switched) (Ok full) "cooking"%string real /\
  forall id dur, assigned L 0 0 id dur -> ~ follows real "kettle"%string (l_dict L) id dur.
Proof.
  exists [[true; true]], ["kettle"%string; "kettle"%string], ["cooking"%string; "level"%string],
    [("kettle"%string, [("k1"%string, [10; 20]%Q)])], [("kettle"%string, [("k1"%string, [1; 2; 3; 4; 5]%Q)])], (fun _ _ => 0), (fun _ _ => 0).
  eexists. exists [("kettle"%string, [("k1"%string, [10; 20]%Q)])].
  assert (P : forall l : list Q, picks ["kettle"%string; "kettle"%string] [("kettle"%string, [("k1"%string, l)])] (fun _ _ => 0)).
  { intros l h j t ps E D. unfold at_ in E. assert (t = "kettle"%string) by (destruct j as [|[|[|j]]]; simpl in E; congruence). subst t.
    simpl in D. injection D as <-. simpl. lia. }
  split; [reflexivity|]. split; [vm_compute; reflexivity|]. split; [apply P|]. split; [apply P|].
  split; [reflexivity|]. split; [reflexivity|]. split; [eexists; split; reflexivity|]. split; [reflexivity|].
  split. { right. split; [intros [X|X]; discriminate|]. auto. }
  intros id dur [[r1 [A1 A2]] [r2 [B1 B2]]] (ps & name & p & rows & zeros & F1 & F2 & F3 & _).
  unfold at_ in *. simpl in *. injection B1 as <-. simpl in B2. injection B2 as <-. injection F1 as <-.
  destruct id as [|[|id]]; simpl in F2; try discriminate. injection F2 as <- <-. discriminate.
Qed.

(** Appliances nobody owns, and types without a variable appliance, have no profile. *)
Theorem C103_constant : forall algo own types related switched full p1 p2 L h j t b,
  sample_real_load_profiles algo own types related switched full p1 p2 = Ok L -> at_ types j t -> at2 own h j b ->
  (b = false \/ forall j' r real, at_ types j' t -> at_ related j' r -> source algo switched full r real -> ~ known real t) ->
  assigned L h j 0 0.
Proof. exact real_constant. Qed.

Theorem C103_defined : forall algo own types related switched full p1 p2 n k, algo <> OtherAlgo -> shaped n k own ->
  picks types switched p1 -> picks types full p2 ->
  (forall t, known switched t -> dget String.eqb switched t <> Some []) -> (forall t, known full t -> dget String.eqb full t <> Some []) ->
  exists L, sample_real_load_profiles algo own types related (Ok switched) (Ok full) p1 p2 = Ok L /\ shaped n k (l_id L) /\ shaped n k (l_dur L).
Proof.
  intros algo own types related rs rf p1 p2 n k A So P1 P2 N1 N2. destruct (real_total algo own types related rs rf p1 p2 n k A So P1 P2 N1 N2) as [L E].
  exists L. split; [exact E|]. exact (real_shape _ _ _ _ _ _ _ _ _ n k E So).
Qed.

(** The loader is only asked for what is needed, and its errors are passed on. *)
Theorem C103_errors : forall own types related switched full p1 p2 e,
  (exists L, sample_real_load_profiles Nothing own types related (Err e) (Err e) p1 p2 = Ok L) /\
  sample_real_load_profiles OnlyAlwaysOn own types related switched (Err e) p1 p2 = Err e /\
  sample_real_load_profiles OnlySwitchedOn own types related (Err e) full p1 p2 = Err e /\
  sample_real_load_profiles Uniform own types related (Err e) full p1 p2 = Err e /\
  sample_real_load_profiles OtherAlgo own types related switched full p1 p2 = Err ValueError.
Proof. intros. split; [eexists; reflexivity|]. repeat split; reflexivity. Qed.

Definition demo_switched : real_loads :=
  [("kettle"%string, [("k1"%string, [10; 20]%Q); ("k2"%string, [7]%Q)]); ("fridge"%string, [("f"%string, [9; 9]%Q)])].
Definition demo_full : real_loads := [("fridge"%string, [("f1"%string, [1; 2; 3]%Q)])].

Example C103_example :
  sample_real_load_profiles Uniform [[true; true; true]; [true; true; false]] ["kettle"%string; "lamp"%string; "fridge"%string]
    ["cooking"%string; "level"%string; "level"%string] (Ok demo_switched) (Ok demo_full) (fun h j => h) (fun _ _ => 0) =
  Ok (mkLoads [true; false; true] [[0; 0; 0]; [1; 0; 0]] [[2; 0; 3]; [1; 0; 0]]
        [("kettle"%string, [[10; 20]%Q; [7; 0]%Q]); ("fridge"%string, [[1; 2; 3]%Q])]).
Proof. vm_compute. reflexivity. Qed.

(** ** C104: the initial state *)

(** Parent class: appliances of the whole day with a profile start inside it, the
    others are off; the delays are those drawn. *)
Theorem C104_parent : forall apps related own algo switched full p1 p2 start wait n s,
  length related = length apps -> shaped n (length apps) own ->
  make_appliances apps related own algo switched full p1 p2 start wait = Ok s ->
  simulates n s /\ s_own s = own /\
  forall h j v a r, sees s h j v -> at_ apps j a -> at_ related j r ->
    (whole_day r -> 0 < v_dur v -> 1 < v_dur v /\ v_left v = qn (start h j)) /\
    (~ (whole_day r /\ 0 < v_dur v) -> v_left v = 0%Q) /\
    v_refresh v = (if Z.ltb 0 (ap_delay a) then wait h j else 0%Z) /\
    v_app v = set_variable a (ap_variable (v_app v)).
Proof.
  intros apps related own algo switched full p1 p2 start wait n s Lr So H.
  destruct (parent_left apps related own algo switched full p1 p2 start wait n Lr So s H) as (Sim & C).
  destruct (make_ok _ apps related own algo switched full p1 p2 wait n Lr So s H) as (L & left & _ & _ & _ & Eo & _ & _ & _ & _ & _ & _ & A).
  split; [exact Sim|]. split; [exact Eo|]. intros h j v a r Hv Ea Er. destruct (C h j v r Hv Er). destruct (A h j v a r Hv Ea Er) as (X & _ & Y). auto.
Qed.

(** So such an appliance is in use at the start, in every household that owns it. *)
Theorem C104_running : forall apps related own algo switched full p1 p2 start wait n s h j v r,
  length related = length apps -> shaped n (length apps) own ->
  make_appliances apps related own algo switched full p1 p2 start wait = Ok s -> starts (s_load_dur s) start ->
  sees s h j v -> at_ related j r ->
  (at2 (get_current_usage s) h j true <-> v_own v = true /\ whole_day r /\ 0 < v_dur v) /\
  (at2 (get_current_usage s) h j true -> (0 < v_left v < qn (v_dur v))%Q).
Proof.
  intros apps related own algo switched full p1 p2 start wait n s h j v r Lr So H St Hv Er.
  destruct (parent_left apps related own algo switched full p1 p2 start wait n Lr So s H) as (Sim & C). destruct (C h j v r Hv Er) as (C1 & C2).
  assert (X : whole_day r -> 0 < v_dur v -> (0 < v_left v < qn (v_dur v))%Q).
  { intros W D. destruct (C1 W D) as [D1 ->]. destruct Hv as (_ & _ & _ & _ & V5 & _). specialize (St h j _ V5 D1). unfold qn.
    change 0%Q with (inject_Z 0). rewrite <- !Zlt_Qlt. lia. }
  assert (Y : (0 < v_left v)%Q -> whole_day r /\ 0 < v_dur v).
  { intro P. destruct (always_on r) eqn:Ar; destruct (Nat.eq_dec (v_dur v) 0) as [Z|NZ].
    - rewrite C2 in P by (intros [_ ?]; lia). discriminate P.
    - apply always_on_spec in Ar. split; [exact Ar|lia].
    - rewrite C2 in P by (intros [_ ?]; lia). discriminate P.
    - apply not_whole in Ar. rewrite C2 in P by tauto. discriminate P. }
  rewrite (usage_true _ _ _ _ Hv). split; [|intros [_ P]; destruct (Y P); auto]. split; [intros [Ow P]; auto|intros (Ow & W & D); split; [exact Ow|apply X; auto]].
Qed.

(** Occupancy simulator: everything is off. *)
Theorem C104_occupancy : forall apps related own algo switched full p1 p2 wait n s,
  length related = length apps -> shaped n (length apps) own ->
  make_occupancy_appliances apps related own algo switched full p1 p2 wait = Ok s ->
  simulates n s /\ forall h j v, sees s h j v -> v_left v = 0%Q.
Proof. intros apps related own algo switched full p1 p2 wait n s Lr So. exact (occupancy_left apps related own algo switched full p1 p2 wait n Lr So s). Qed.

(** Construction succeeds when all profiles have at least two values. *)
Theorem C104_defined_partial : forall apps related own algo switched full p1 p2 start wait n,
  length related = length apps -> shaped n (length apps) own -> algo <> OtherAlgo ->
  picks (map ap_type apps) switched p1 -> picks (map ap_type apps) full p2 -> at_least 2 switched -> at_least 2 full ->
  exists s, make_appliances apps related own algo (Ok switched) (Ok full) p1 p2 start wait = Ok s.
Proof. intros. eapply make_total; eauto. Qed.

Definition fridge := App "fridge" 1 50 false 10 3 false 0 false 0 0.
Definition kettle := App "kettle" 0 2000 false 4 0 false 0 true (1#2) 0.

(** A 'full' profile of one value cannot be started: the simulator is not built. *)
Theorem C104_defined_refuted : exists apps related own full p, length related = length apps /\ shaped 1 (length apps) own /\
  picks (map ap_type apps) full p /\ at_least 1 full /\
  forall start wait, make_appliances apps related own OnlyAlwaysOn (Ok []) (Ok full) p p start wait = Err ValueError.
Proof.
  exists [fridge], ["level"%string], [[true]], [("fridge"%string, [("f"%string, [80%Q])])], (fun _ _ => 0).
  split; [reflexivity|]. split. { split; [reflexivity|]. intros [|h] row E; [injection E as <-; reflexivity|destruct h; discriminate]. }
  split. { intros h [|[|j]] t ps E D; try discriminate. injection E as <-. vm_compute in D. injection D as <-. simpl. lia. }
  split. { intros t ps D. cbn [dget] in D. destruct (t =? "fridge")%string; [|discriminate]. injection D as <-. split; [discriminate|].
    intros [|[|i]] name p E; try discriminate. injection E as <- <-. simpl. lia. }
  intros start wait. vm_compute. reflexivity.
Qed.

(** An appliance of the whole day with a constant load may start in use: with
    'only_switched_on' it gets the profile length of another appliance of its type. *)
Theorem C104_constant_refuted : exists apps related own switched p start s v, length related = length apps /\ shaped 1 (length apps) own /\
  picks (map ap_type apps) switched p /\ at_least 2 switched /\
  make_appliances apps related own OnlySwitchedOn (Ok switched) (Ok []) p p start (fun _ _ => 0%Z) = Ok s /\ starts (s_load_dur s) start /\
  sees s 0 1 v /\ ap_variable (v_app v) = false /\ at2 (get_current_usage s) 0 1 true.
Proof.
  exists [fridge; fridge], ["cooking"%string; "level"%string], [[true; true]], [("fridge"%string, [("f"%string, [80; 90; 10]%Q)])], (fun _ _ => 0), (fun _ _ => 2).
  eexists. exists (View fridge true 2 0 3 0).
  split; [reflexivity|]. split. { split; [reflexivity|]. intros [|h] row E; [injection E as <-; reflexivity|destruct h; discriminate]. }
  split. { intros h j t ps E D. assert (t = "fridge"%string) by (destruct j as [|[|[|j]]]; unfold at_ in E; simpl in E; congruence). subst t. vm_compute in D. injection D as <-. simpl. lia. }
  split. { intros t ps D. cbn [dget] in D. destruct (t =? "fridge")%string; [|discriminate]. injection D as <-. split; [discriminate|].
    intros [|[|i]] name p E; try discriminate. injection E as <- <-. simpl. lia. }
  split; [vm_compute; reflexivity|].
  split. { intros h j d (row & E1 & E2) _. destruct h as [|[|h]]; try discriminate. injection E1 as <-. destruct j as [|[|[|j]]]; try discriminate; injection E2 as <-; lia. }
  split. { repeat split; try reflexivity; eexists; split; reflexivity. }
  split; [reflexivity|]. eexists. split; reflexivity.
Qed.

(** Readings: after any number of steps of the parent class the consumptions are
    defined. *)
Theorem C104_parent_readings : forall apps related own algo switched full p1 p2 start wait n s k,
  length related = length apps -> shaped n (length apps) own ->
  make_appliances apps related own algo switched full p1 p2 start wait = Ok s ->
  (forall real, switched = Ok real \/ full = Ok real -> at_least 1 real) -> starts (s_load_dur s) start ->
  exists P, get_current_power_consumptions (after k s) = Ok P.
Proof.
  intros apps related own algo switched full p1 p2 start wait n s k Lr So.
  exact (parent_readings apps related own algo switched full p1 p2 start wait n Lr So s k).
Qed.

(** The same for the occupancy simulator, whatever happens during the steps, if the
    appliances with a variable load use no water. *)
Theorem C104_occupancy_readings_partial : forall apps related own algo switched full p1 p2 wait n s l s',
  length related = length apps -> shaped n (length apps) own ->
  make_occupancy_appliances apps related own algo switched full p1 p2 wait = Ok s ->
  (forall real, switched = Ok real \/ full = Ok real -> at_least 1 real) ->
  (forall j a, at_ (s_apps s) j a -> ap_variable a = true -> ap_water a = false) ->
  (forall i, In i l -> draws i) -> occ_run s l = Ok s' -> exists P, get_current_power_consumptions s' = Ok P.
Proof.
  intros apps related own algo switched full p1 p2 wait n s l s' Lr So H AL D.
  apply (occupancy_readings apps related own algo switched full p1 p2 wait n Lr So s l s' H AL). right. exact D.
Qed.

(** With a water appliance that follows a profile it fails: the cycle lasts as long as
    the water runs, and the profile is read outside its bounds. *)
Definition washer := App "washer" 1 50 false 10 0 true 2 false 1 0.
Theorem C104_occupancy_readings_refuted : exists apps related own switched p s i s',
  length related = length apps /\ shaped 1 (length apps) own /\ at_least 1 switched /\
  make_occupancy_appliances apps related own OnlySwitchedOn (Ok switched) (Ok []) p p (fun _ _ => 0%Z) = Ok s /\
  draws i /\ occ_run s [i] = Ok s' /\ get_current_power_consumptions s' = Err IndexError.
Proof.
  exists [washer], ["laundry"%string], [[true]], [("washer"%string, [("w"%string, [80; 90]%Q)])], (fun _ _ => 0).
  eexists. exists (OccIn [[[0; 1]]] [0]%nat (fun _ _ => 1#2) (fun _ _ => 12%nat) (fun _ _ => 12%nat) [1%Z])%Q. eexists.
  split; [reflexivity|]. split. { split; [reflexivity|]. intros [|h] row E; [injection E as <-; reflexivity|destruct h; discriminate]. }
  split. { intros t ps D. cbn [dget] in D. destruct (t =? "washer")%string; [|discriminate]. injection D as <-. split; [discriminate|].
    intros [|[|i]] name p E; try discriminate. injection E as <- <-. simpl. lia. }
  split; [vm_compute; reflexivity|]. split; [intros h j; simpl; lra|]. split; [vm_compute; reflexivity|]. vm_compute. reflexivity.
Qed.

Example C104_example : exists s,
  make_appliances [kettle; fridge] ["cooking"%string; "level"%string] [[true; true]; [true; false]] Uniform (Ok demo_switched) (Ok demo_full)
    (fun h j => h) (fun _ _ => 0) (fun _ _ => 2) (fun h j => Z.of_nat h) = Ok s /\
  s_left s = [[0; 2]; [0; 0]]%Q /\ s_refresh s = [[0; 0]; [0; 1]]%Z /\ s_load_dur s = [[2; 3]; [1; 0]] /\ map ap_variable (s_apps s) = [true; true] /\
  (exists P, get_current_power_consumptions s = Ok P /\ Forall2 eqQ_list P [[0; 2]; [0; 0]]%Q) /\
  (exists P, get_current_power_consumptions (after 1 s) = Ok P /\ Forall2 eqQ_list P [[0; 3]; [0; 0]]%Q) /\
  (exists P, get_current_power_consumptions (after 2 s) = Ok P /\ Forall2 eqQ_list P [[0; 1]; [0; 0]]%Q).
Proof.
  eexists. split; [vm_compute; reflexivity|]. split; [reflexivity|]. split; [reflexivity|]. split; [reflexivity|]. split; [reflexivity|].
  split; [|split]; eexists; (split; [vm_compute; reflexivity|]; repeat constructor; vm_compute; reflexivity).
Qed.

Print Assumptions C102_subgroup.
Print Assumptions C102_set.
Print Assumptions C103_profile_partial.
Print Assumptions C103_profile_refuted.
Print Assumptions C104_parent.
Print Assumptions C104_occupancy_readings_partial.
