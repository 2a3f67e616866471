(** * Properties of the subgroup helpers (C55, C56, C89, C90). *)

From Coq Require Import String Ascii List ZArith Bool Arith Lia Permutation.
From Verif Require Import Prelude PreludeFacts SpecBase Time_Model Subgroup_Model Subgroup_Spec Subgroup_Proofs Subgroup_NameProofs.
Import ListNotations.
Local Open Scope string_scope.

Definition family : subgroup := [("n_residents", VInt 4); ("quarter", VInt 2); ("household_type", VInt 4); ("hh_mean_age", VInt 31)]%Z.

(** ** C55: time attributes *)

(** The week day and quarter of the date, and no other change. *)
Theorem C55_add_time : forall d t k q, is_dict d -> (0 <= t)%Z -> let '(f1, f2, f3) := flags k in exists d',
  add_time d t f1 f2 f3 q = Ok d' /\ is_dict d' /\
  (forall key, key <> "weekday" -> key <> "quarter" -> agree d' d key) /\
  (forall v, has d' "weekday" v <-> day_value t k v) /\
  (forall v, has d' "quarter" v <-> q = true /\ exists n, v = VInt n /\ quarter_of (month (date_at t)) n).
Proof. exact add_time_main. Qed.

(** Every date has exactly one value of each kind. *)
Theorem C55_defined : forall t k, k <> NoDays -> exists v, day_value t k v /\ forall w, day_value t k w -> w = v.
Proof.
  intros t k N. destruct k; [congruence| | |]; eexists; (split; [apply day_value_choice; reflexivity|]); intros w D; apply day_value_choice in D; exact D.
Qed.

(** Contradictory flags. *)
Theorem C55_flags : forall d t f1 f2 f3 q, add_time d t f1 f2 f3 q = Err ValueError <-> forall k, flags k <> (f1, f2, f3).
Proof.
  intros d t f1 f2 f3 q. split.
  - intros E k F. destruct k; cbn in F; injection F as <- <- <-; discriminate.
  - intro H. destruct f1, f2, f3; try reflexivity; exfalso; [apply (H WeekEndsDays)|apply (H WeekSatSun)|apply (H SevenDays)|apply (H NoDays)]; reflexivity.
Qed.

(** Removing the time attributes forgets the call. *)
Theorem C55_remove : forall d t f1 f2 f3 q d', is_dict d -> add_time d t f1 f2 f3 q = Ok d' -> remove_time_attributues d' = remove_time_attributues d.
Proof. exact remove_add. Qed.

Theorem C55_restore : forall d t f1 f2 f3 q d', is_dict d -> lacks d "weekday" -> lacks d "quarter" -> add_time d t f1 f2 f3 q = Ok d' -> remove_time_attributues d' = d.
Proof.
  intros d t f1 f2 f3 q d' H W Q E. rewrite (remove_add _ _ _ _ _ _ _ H E). unfold remove_time_attributues. rewrite (proj2 (get_lacks _ _ H) W), (proj2 (get_lacks _ _ H) Q). reflexivity.
Qed.

(** A later call replaces the attributes of an earlier one. *)
Theorem C55_latest : forall d t t' k k' q q' d1 d2 d3, is_dict d -> (0 <= t)%Z -> (0 <= t')%Z ->
  (let '(f1, f2, f3) := flags k in add_time d t f1 f2 f3 q) = Ok d1 ->
  (let '(f1, f2, f3) := flags k' in add_time d1 t' f1 f2 f3 q') = Ok d2 -> (let '(f1, f2, f3) := flags k' in add_time d t' f1 f2 f3 q') = Ok d3 ->
  forall key, agree d2 d3 key.
Proof.
  intros d t t' k k' q q' d1 d2 d3 H Ht Ht' E1 E2 E3 key v.
  pose proof (add_time_main d t k q H Ht) as M1. destruct (flags k) as [[f1 f2] f3]. destruct M1 as (x1 & X1 & D1 & O1 & _ & _). assert (x1 = d1) by congruence. subst x1.
  pose proof (add_time_main d1 t' k' q' D1 Ht') as M2. pose proof (add_time_main d t' k' q' H Ht') as M3. destruct (flags k') as [[g1 g2] g3].
  destruct M2 as (x2 & X2 & D2 & O2 & W2 & Q2). destruct M3 as (x3 & X3 & D3 & O3 & W3 & Q3). assert (x2 = d2) by congruence. assert (x3 = d3) by congruence. subst x2 x3.
  destruct (string_dec key "weekday") as [->|Nw]; [pose proof (W2 v); pose proof (W3 v); unfold has in *; tauto|].
  destruct (string_dec key "quarter") as [->|Nq]; [pose proof (Q2 v); pose proof (Q3 v); unfold has in *; tauto|].
  pose proof (O1 key Nw Nq v). pose proof (O2 key Nw Nq v). pose proof (O3 key Nw Nq v). tauto.
Qed.

(** The default flags produce the format that is checked elsewhere. *)
Theorem C55_week_format : forall d t q d', is_dict d -> add_time d t true false false q = Ok d' ->
  check_weekend_day_format d' = Ok tt /\ exists e, is_weekend d' = Ok e /\ is_weekday d' = Ok (negb e) /\ (e = true <-> exists w, day_number t w /\ (w = 6 \/ w = 7)%Z).
Proof.
  intros d t q d' H E. unfold add_time in E. cbn in E. injection E as <-.
  set (v := if (isoweekday t <=? 5)%Z then week else week_end). assert (S : get (set_key d "weekday" v) "weekday" = Some v) by (apply (get_has _ _ _ (set_dict _ _ _ H)); apply set_same; [exact H|reflexivity]).
  assert (G : get (if q then set_key (set_key d "weekday" v) "quarter" (VInt ((month (date_at t) - 1) / 3 + 1)) else pop (set_key d "weekday" v) "quarter") "weekday" = Some v).
  { destruct q; unfold get, set_key, pop in *; [rewrite dget_dset_other; [exact S|apply String.eqb_eq|discriminate]|rewrite dget_ddel_other; [exact S|apply String.eqb_eq|discriminate]]. }
  unfold check_weekend_day_format, is_weekend, is_weekday, subscript. rewrite G. cbn [bind]. unfold v. pose proof (iso_day t) as I. destruct (Z.leb_spec (isoweekday t) 5) as [L|L].
  - split; [reflexivity|]. exists false. split; [reflexivity|]. split; [reflexivity|]. split; [discriminate|]. intros (w & Hw & B). pose proof (day_unique _ _ _ Hw I). lia.
  - split; [reflexivity|]. exists true. split; [reflexivity|]. split; [reflexivity|]. split; [|reflexivity]. intros _. exists (isoweekday t). split; [exact I|]. destruct I as (B & _). lia.
Qed.

(** Week days and week ends are recognised by their lists only: any other value
    is neither, and refused by the check; without the key there is an error. *)
Theorem C55_week_values : forall d, is_dict d ->
  (forall v, has d "weekday" v -> exists e w, is_weekend d = Ok e /\ is_weekday d = Ok w /\
     (e = true <-> v = VInts [6; 7]%Z) /\ (w = true <-> v = VInts [1; 2; 3; 4; 5]%Z) /\
     (check_weekend_day_format d = Ok tt <-> e = true \/ w = true) /\ (check_weekend_day_format d = Err ValueError <-> e = false /\ w = false)) /\
  (lacks d "weekday" -> is_weekend d = Err KeyError /\ is_weekday d = Err KeyError /\ check_weekend_day_format d = Err KeyError).
Proof.
  intros d H. split.
  - intros v Hv. apply (get_has _ _ _ H) in Hv. unfold is_weekend, is_weekday, check_weekend_day_format, subscript. rewrite Hv. cbn [bind].
    exists (value_eqb v week_end), (value_eqb v week). split; [reflexivity|]. split; [reflexivity|]. split; [apply value_eqb_eq|]. split; [apply value_eqb_eq|].
    destruct (value_eqb v week), (value_eqb v week_end); cbn [orb]; split; intuition (try discriminate; auto).
  - intro L. apply (get_lacks _ _ H) in L. unfold is_weekend, is_weekday, check_weekend_day_format, subscript. rewrite L. cbn. auto.
Qed.

(** Wednesday 11 April of year 1. *)
Example C55_example : add_time family (100 * us_per_day) true false false true =
    Ok [("n_residents", VInt 4); ("quarter", VInt 2); ("household_type", VInt 4); ("hh_mean_age", VInt 31); ("weekday", VInts [1; 2; 3; 4; 5])]%Z /\
  add_time family (5 * us_per_day) false true false false = Ok [("n_residents", VInt 4); ("household_type", VInt 4); ("hh_mean_age", VInt 31); ("weekday", VInt 6)]%Z /\
  add_time family 0 true true false false = Err ValueError.
Proof. conj_vm. Qed.

(** ** C56: persons *)

(** As many persons as residents, when the household type does not contradict
    the number of residents. *)
Theorem C56_count_partial : forall hh n, is_dict hh -> states_residents hh n -> type_fits hh n -> exists ps, household_to_persons hh = Ok ps /\ length ps = n.
Proof. intros hh n H. apply persons_count, H. Qed.

(** Only persons derived from the household. *)
Theorem C56_inherit : forall hh ps p, is_dict hh -> household_to_persons hh = Ok ps -> In p ps -> person_of hh p.
Proof. intros hh ps p H E I. exact (persons_inherit hh H ps E p I). Qed.

(** The first is the main earner; then the spouse, except in single parent
    households; then the children. *)
Theorem C56_roles : forall hh t n, is_dict hh -> has hh "household_type" (VInt t) -> has hh "n_residents" (VInt (Z.of_nat n)) -> 2 <= n -> (2 <= t <= 4)%Z ->
  exists ps, household_to_persons hh = Ok ps /\ forall i p, nth_error ps i = Some p ->
    has p "household_position" (VInt (if (i =? 0)%nat then 1 else if (i =? 1)%nat && negb (t =? 3)%Z then 2 else 3)).
Proof. intros hh t n H. apply persons_roles, H. Qed.

(** A list of households gives one list per household. *)
Theorem C56_list : forall hhs out, subgroup_households_to_persons hhs = Ok out -> length out = length hhs /\
  forall i hh, nth_error hhs i = Some hh -> exists ps, nth_error out i = Some ps /\ household_to_persons hh = Ok ps.
Proof. intros hhs out E. apply mapM_ok in E. destruct E as (L & P). split; [exact L|]. intros i hh Hi. destruct (P i hh Hi) as (ps & A & B). exists ps. auto. Qed.

(** The type wins over a contradicting number of residents. *)
Theorem C56_contradiction_refuted : exists hh n ps, is_dict hh /\ states_residents hh n /\ household_to_persons hh = Ok ps /\ length ps <> n.
Proof.
  exists [("n_residents", VInt 3); ("household_type", VInt 2)], 3. eexists. split; [repeat constructor; cbn; intuition discriminate|]. split; [left; now left|]. split; [vm_compute; reflexivity|]. discriminate.
Qed.

(** Families without a number of residents are an error. *)
Theorem C56_no_number : forall hh, is_dict hh -> lacks hh "n_residents" -> ~ has hh "household_type" (VInt 1) -> ~ has hh "household_type" (VInt 2) -> household_to_persons hh = Err TypeError.
Proof.
  intros hh H L N1 N2. unfold household_to_persons. rewrite type_get. rewrite (proj2 (get_lacks _ _ H) L). cbn [is_int copies bind]. rewrite orb_false_r.
  destruct (is_int (get hh "household_type") 1) eqn:E1; [apply (is_int_spec _ _ _ H) in E1; contradiction|]. destruct (is_int (get hh "household_type") 2) eqn:E2; [apply (is_int_spec _ _ _ H) in E2; contradiction|].
  destruct (is_int (get hh "household_type") 3); [reflexivity|]. destruct (is_int (get hh "household_type") 4); reflexivity.
Qed.

Example C56_example : household_to_persons family =
    Ok (map (fun p => [("quarter", VInt 2); ("hh_mean_age", VInt 31); ("household_position", VInt p)]%Z) [1; 2; 3; 3]%Z) /\
  household_to_persons [("n_residents", VInt 1); ("hh_mean_age", VInt 70)]%Z = Ok [[("age", VInt 70)]]%Z /\
  is_dict family /\ states_residents family 4 /\ type_fits family 4.
Proof.
  split; [vm_compute; reflexivity|]. split; [vm_compute; reflexivity|]. split; [repeat constructor; cbn; intuition discriminate|]. split; [left; now left|].
  repeat split; intros X; try lia; repeat (destruct X as [X|X]; [discriminate|]); destruct X.
Qed.

(** ** C89: names of subgroups *)

(** The name does not depend on the order of the keys. *)
Theorem C89_order_free : forall a b, is_dict a -> Permutation a b -> subgroup_string a = subgroup_string b.
Proof. exact string_order. Qed.

(** Two subgroups with plain keys have the same name exactly when they have the
    same keys with the same numbers. *)
Theorem C89_injective_partial : forall a b, plain a -> plain b -> (subgroup_string a = subgroup_string b <-> same_numbers a b).
Proof.
  intros a b Pa Pb. split; [apply string_inj; assumption|]. apply same_string; [apply Pa|apply Pb].
Qed.

(** A number and a list with this one number share a name. *)
Theorem C89_collision_refuted : exists a b, plain a /\ plain b /\ a <> b /\ subgroup_string a = subgroup_string b.
Proof.
  assert (P : forall v, numbers v <> [] -> plain [("weekday", v)]).
  { intros v N. split; [repeat constructor; intros []|]. intros k w [E|[]]. injection E as <- <-. split; [|exact N]. exists ["weekday"]. split; [discriminate|]. split; [|reflexivity]. intros x [<-|[]]. split; [discriminate|]. cbn. intuition discriminate. }
  exists [("weekday", VInts [6]%Z)], [("weekday", VInt 6)]. split; [apply P; discriminate|]. split; [apply P; discriminate|]. split; [discriminate|vm_compute; reflexivity].
Qed.

Example C89_example : subgroup_string family = "hh_mean_age_31__household_type_4__n_residents_4__quarter_2" /\
  subgroup_string [("weekday", VInts [6; 7]); ("gender", VInt (-1))]%Z = "gender_-1__weekday_6,7" /\ plain family.
Proof.
  split; [vm_compute; reflexivity|]. split; [vm_compute; reflexivity|]. split; [repeat constructor; cbn; intuition discriminate|].
  assert (W : forall ws, ws <> [] -> (forall w, In w ws -> w <> "" /\ ~ In "_"%char (list_ascii_of_string w)) -> plain_key (String.concat "_" ws)) by (intros ws A B; exists ws; auto).
  intros k v [E|[E|[E|[E|[]]]]]; injection E as <- <-; (split; [|discriminate]).
  - apply (W ["n"; "residents"]); [discriminate|]. intros w [<-|[<-|[]]]; (split; [discriminate|cbn; intuition discriminate]).
  - apply (W ["quarter"]); [discriminate|]. intros w [<-|[]]; (split; [discriminate|cbn; intuition discriminate]).
  - apply (W ["household"; "type"]); [discriminate|]. intros w [<-|[<-|[]]]; (split; [discriminate|cbn; intuition discriminate]).
  - apply (W ["hh"; "mean"; "age"]); [discriminate|]. intros w [<-|[<-|[<-|[]]]]; (split; [discriminate|cbn; intuition discriminate]).
Qed.

(** ** C90: order of subgroups *)

(** [>] is decided by the number of keys and by the first difference. *)
Theorem C90_order : forall a b, is_dict a -> is_dict b -> comparable a b -> exists r, subgroup_gt a b = Ok r /\ (r = true <-> ahead a b).
Proof. exact gt_iff. Qed.

(** It is a strict total order up to the order of the keys, as sorting needs. *)
Theorem C90_strict_total : forall a b c, is_dict a -> is_dict b -> is_dict c -> comparable a b -> comparable b c -> comparable a c ->
  subgroup_gt a a = Ok false /\
  (subgroup_gt a b = Ok true -> subgroup_gt b a = Ok false) /\
  (subgroup_gt a b = Ok true -> subgroup_gt b c = Ok true -> subgroup_gt a c = Ok true) /\
  (subgroup_gt a b = Ok false -> subgroup_gt b a = Ok false -> Permutation a b) /\
  (Permutation a b -> subgroup_gt a b = Ok false).
Proof.
  intros a b c Da Db Dc Kab Kbc Kac.
  assert (Kaa : comparable a a). { intros k v w I J. apply (get_has _ _ _ Da) in I, J. assert (v = w) by congruence. subst. destruct w; exact Logic.I. }
  destruct (gt_iff a a Da Da Kaa) as (raa & Raa & Iaa). destruct (gt_iff a b Da Db Kab) as (rab & Rab & Iab). destruct (gt_iff b a Db Da (comparable_sym _ _ Kab)) as (rba & Rba & Iba).
  destruct (gt_iff b c Db Dc Kbc) as (rbc & Rbc & Ibc). destruct (gt_iff a c Da Dc Kac) as (rac & Rac & Iac). rewrite Raa, Rab, Rba, Rbc, Rac.
  split; [|split; [|split; [|split]]].
  - destruct raa; [|reflexivity]. destruct (ahead_irrefl a Da (proj1 Iaa eq_refl)).
  - intro E. assert (rab = true) by congruence. destruct rba; [|reflexivity]. destruct (ahead_irrefl a Da). eapply ahead_trans; [exact Db|apply Iab; assumption|apply Iba; reflexivity].
  - intros E1 E2. assert (rab = true) by congruence. assert (rbc = true) by congruence. f_equal. apply Iac. eapply ahead_trans; [exact Db|apply Iab; assumption|apply Ibc; assumption].
  - intros E1 E2. assert (rab = false) by congruence. assert (rba = false) by congruence. destruct (gt_total a b Da Db Kab) as [X|[X|X]]; [apply Iab in X; congruence|apply Iba in X; congruence|].
    apply NoDup_Permutation; [apply NoDup_map_inv with (f := fst), Da|apply NoDup_map_inv with (f := fst), Db|]. intros [k v]. apply X.
  - intro P. destruct rab; [|reflexivity]. exfalso. apply (ahead_agree a b Da Db); [|apply Iab; reflexivity]. intros k v. split; apply Permutation_in; [exact P|apply Permutation_sym, P].
Qed.

(** The documentation says the opposite: a larger number of keys is more, and
    then the larger value. *)
Theorem C90_documented_refuted : (exists a b, is_dict a /\ is_dict b /\ length a < length b /\ subgroup_gt a b = Ok true) /\
  exists x y, (x < y)%Z /\ subgroup_gt [("n_residents", VInt x)] [("n_residents", VInt y)] = Ok true.
Proof.
  split.
  - exists [("n_residents", VInt 2)], [("n_residents", VInt 2); ("weekday", VInts [6; 7])%Z]. split; [repeat constructor; intros []|]. split; [repeat constructor; cbn; intuition discriminate|]. split; [cbn; lia|reflexivity].
  - exists 1%Z, 2%Z. split; [lia|reflexivity].
Qed.

(** Values of different kinds cannot be compared. *)
Theorem C90_kinds : subgroup_gt [("weekday", VInt 6)] [("weekday", VInts [6; 7]%Z)] = Err TypeError.
Proof. reflexivity. Qed.

Example C90_example : subgroup_gt [("b", VInt 1); ("a", VInt 5)]%Z [("a", VInt 5); ("c", VInt 0)]%Z = Ok true /\
  subgroup_gt [("a", VInt 5); ("c", VInt 0)]%Z [("b", VInt 1); ("a", VInt 5)]%Z = Ok false.
Proof. conj_vm. Qed.

Print Assumptions C55_add_time.
Print Assumptions C55_defined.
Print Assumptions C55_flags.
Print Assumptions C55_remove.
Print Assumptions C55_restore.
Print Assumptions C55_latest.
Print Assumptions C55_week_format.
Print Assumptions C55_week_values.
Print Assumptions C56_count_partial.
Print Assumptions C56_inherit.
Print Assumptions C56_roles.
Print Assumptions C56_list.
Print Assumptions C56_contradiction_refuted.
Print Assumptions C56_no_number.
Print Assumptions C89_order_free.
Print Assumptions C89_injective_partial.
Print Assumptions C89_collision_refuted.
Print Assumptions C90_order.
Print Assumptions C90_strict_total.
Print Assumptions C90_documented_refuted.
Print Assumptions C90_kinds.
