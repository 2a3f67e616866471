(** * Proofs about the subgroup helpers: time attributes and persons. *)

From Coq Require Import String Ascii List ZArith NArith Bool Arith Lia Permutation.
From Verif Require Import Prelude PreludeFacts SpecBase Time_Model Time_Proofs Subgroup_Model Subgroup_Spec.
Import ListNotations.
Local Open Scope string_scope.

(** ** Dictionaries *)
Lemma get_has : forall d k v, is_dict d -> (get d k = Some v <-> has d k v).
Proof.
  intros d k v H. split; [apply dget_in, String.eqb_eq|]. unfold has, get. induction d as [|[k' v'] d IH]; intro I; [destruct I|]. cbn [dget]. unfold is_dict in H. cbn [map] in H. inversion H as [|? ? N1 N2]; subst.
  destruct (String.eqb_spec k k') as [->|N]; destruct I as [E|I].
  - congruence. - exfalso. apply N1. apply in_map_iff. exists (k', v). auto. - congruence. - apply IH; assumption.
Qed.

Lemma get_lacks : forall d k, is_dict d -> (get d k = None <-> lacks d k).
Proof.
  intros d k H. split.
  - intros E v I. apply (get_has d k v H) in I. congruence.
  - intro L. destruct (get d k) as [v|] eqn:E; [|reflexivity]. apply (get_has d k v H) in E. destruct (L v E).
Qed.

Lemma set_in : forall d k v k', In k' (map fst (set_key d k v)) -> k' = k \/ In k' (map fst d).
Proof.
  unfold set_key. induction d as [|[a b] d IH]; intros k v k'; cbn [dset map fst].
  - intros [<-|[]]. now left.
  - destruct (String.eqb_spec k a) as [->|N]; cbn [map fst]; intros [<-|I].
    + now left. + right. now right. + right. now left. + destruct (IH k v k' I); [now left|right; now right].
Qed.

Lemma set_dict : forall d k v, is_dict d -> is_dict (set_key d k v).
Proof.
  unfold is_dict. induction d as [|[a b] d IH]; intros k v H; unfold set_key in *; cbn [dset map fst] in *; [repeat constructor; intros []|]. inversion H as [|? ? N1 N2]; subst.
  destruct (String.eqb_spec k a) as [->|N]; cbn [map fst]; [assumption|]. constructor; [|apply IH, N2]. intro I. apply (set_in d k v a) in I. destruct I as [->|I]; [congruence|auto].
Qed.

Lemma pop_in : forall d k k', In k' (map fst (pop d k)) -> In k' (map fst d).
Proof.
  unfold pop. induction d as [|[a b] d IH]; intros k k'; cbn [ddel map fst]; [auto|]. destruct (String.eqb k a); [intro; now right|]. cbn [map fst]. intros [<-|I]; [now left|right; eauto].
Qed.

Lemma pop_dict : forall d k, is_dict d -> is_dict (pop d k).
Proof.
  unfold is_dict. induction d as [|[a b] d IH]; intros k H; unfold pop in *; cbn [ddel map fst] in *; [constructor|]. inversion H as [|? ? N1 N2]; subst.
  destruct (String.eqb k a); [assumption|]. cbn [map fst]. constructor; [|apply IH, N2]. intro I. apply (pop_in d k a) in I. auto.
Qed.

Lemma set_same : forall d k v w, is_dict d -> (has (set_key d k v) k w <-> w = v).
Proof.
  intros d k v w H. rewrite <- (get_has _ _ _ (set_dict d k v H)). unfold get, set_key. rewrite dget_dset_same by apply String.eqb_eq. split; congruence.
Qed.

Lemma set_other : forall d k v k' w, is_dict d -> k' <> k -> (has (set_key d k v) k' w <-> has d k' w).
Proof.
  intros d k v k' w H N. rewrite <- (get_has _ _ _ (set_dict d k v H)), <- (get_has _ _ _ H). unfold get, set_key. rewrite dget_dset_other; [tauto|apply String.eqb_eq|exact N].
Qed.

Lemma pop_same : forall d k w, is_dict d -> ~ has (pop d k) k w.
Proof.
  intros d k w H I. apply (get_has _ _ _ (pop_dict d k H)) in I. unfold get, pop in I. rewrite dget_ddel_same in I; [discriminate|apply String.eqb_eq|exact H].
Qed.

Lemma pop_other : forall d k k' w, is_dict d -> k' <> k -> (has (pop d k) k' w <-> has d k' w).
Proof.
  intros d k k' w H N. rewrite <- (get_has _ _ _ (pop_dict d k H)), <- (get_has _ _ _ H). unfold get, pop. rewrite dget_ddel_other; [tauto|apply String.eqb_eq|exact N].
Qed.

Lemma pop_set : forall d k v, pop (set_key d k v) k = pop d k.
Proof.
  unfold pop, set_key. induction d as [|[a b] d IH]; intros k v; cbn [dset ddel]; [rewrite String.eqb_refl; reflexivity|].
  destruct (String.eqb k a) eqn:E; cbn [ddel]; rewrite E; [reflexivity|]. rewrite IH. reflexivity.
Qed.

Lemma pop_set_comm : forall d k k' v, k <> k' -> pop (set_key d k' v) k = set_key (pop d k) k' v.
Proof.
  unfold pop, set_key. intros d k k' v N. induction d as [|[a b] d IH]; cbn [dset ddel].
  - destruct (String.eqb_spec k k'); [congruence|reflexivity].
  - destruct (String.eqb_spec k a) as [->|Na].
    + destruct (String.eqb_spec k' a) as [->|Nb]; [congruence|]. cbn [ddel]. rewrite String.eqb_refl. reflexivity.
    + destruct (String.eqb_spec k' a) as [->|Nb]; cbn [ddel dset].
      * destruct (String.eqb_spec k a); [congruence|]. rewrite String.eqb_refl. reflexivity.
      * destruct (String.eqb_spec k a); [congruence|]. destruct (String.eqb_spec k' a); [congruence|]. rewrite IH. reflexivity.
Qed.

Lemma pop_absent : forall d k, ~ In k (map fst d) -> pop d k = d.
Proof.
  unfold pop. induction d as [|[a b] d IH]; intros k H; cbn [ddel]; [reflexivity|]. destruct (String.eqb_spec k a) as [->|N]; [exfalso; apply H; now left|].
  rewrite IH; [reflexivity|]. intro I. apply H. now right.
Qed.

Lemma pop_twice : forall d k, is_dict d -> pop (pop d k) k = pop d k.
Proof.
  intros d k H. apply pop_absent. intro I. apply in_map_iff in I. destruct I as ([k' v] & E & I). cbn in E. subst k'. apply (pop_same d k v H). exact I.
Qed.

Lemma pop_comm : forall d k k', pop (pop d k) k' = pop (pop d k') k.
Proof.
  unfold pop. induction d as [|[a b] d IH]; intros k k'; cbn [ddel]; [reflexivity|].
  destruct (String.eqb k a) eqn:E1, (String.eqb k' a) eqn:E2; cbn [ddel]; rewrite ?E1, ?E2; try reflexivity; [|now rewrite IH].
  apply String.eqb_eq in E1, E2. subst. reflexivity.
Qed.

(** ** Time *)
Lemma iso_day : forall t, day_number t (isoweekday t).
Proof.
  intro t. unfold day_number, isoweekday, weekday_at. pose proof (Z.mod_pos_bound (t / us_per_day) 7 ltac:(lia)). split; [lia|]. exists ((t / us_per_day) / 7)%Z.
  pose proof (Z.div_mod (t / us_per_day) 7 ltac:(lia)). lia.
Qed.

Lemma day_unique : forall t w w', day_number t w -> day_number t w' -> w = w'.
Proof. intros t w w' (B & n & E) (B' & n' & E'). lia. Qed.

Lemma quarter_value : forall t q, (0 <= t)%Z -> (q = (month (date_at t) - 1) / 3 + 1)%Z <-> quarter_of (month (date_at t)) q.
Proof.
  intros t q Ht. assert (V : valid (date_at t)) by (apply date_of_valid; apply Z.div_pos; [exact Ht|reflexivity]).
  assert (M : (1 <= month (date_at t) <= 12)%Z) by (unfold valid in V; lia). set (m := month (date_at t)) in *. clearbody m. clear V.
  assert (C : (m = 1 \/ m = 2 \/ m = 3 \/ m = 4 \/ m = 5 \/ m = 6 \/ m = 7 \/ m = 8 \/ m = 9 \/ m = 10 \/ m = 11 \/ m = 12)%Z) by lia.
  split.
  - intros ->. repeat (destruct C as [->|C]); [..|subst m]; cbn [Z.sub Z.div];
    match goal with |- quarter_of ?m ?q => let v := eval vm_compute in q in change q with v end;
    first [apply winter; cbn; tauto|apply spring; cbn; tauto|apply summer; cbn; tauto|apply autumn; cbn; tauto].
  - intro Q. destruct Q as [m I|m I|m I|m I]; cbn [In] in I; repeat (destruct I as [<-|I]); try contradiction; reflexivity.
Qed.

Lemma day_value_choice : forall t k v, day_value t k v <->
  match k with
  | NoDays => False
  | WeekEndsDays => v = if (isoweekday t <=? 5)%Z then week else week_end
  | WeekSatSun => v = if (isoweekday t <=? 5)%Z then week else VInt (isoweekday t)
  | SevenDays => v = VInt (isoweekday t)
  end.
Proof.
  intros t k v. pose proof (iso_day t) as I. split.
  - intro D. destruct D as [w N L|w N L|w N L|w N L|w N]; pose proof (day_unique _ _ _ N I) as ->.
    + rewrite (proj2 (Z.leb_le _ _) L). reflexivity.
    + rewrite (proj2 (Z.leb_gt _ _)) by lia. reflexivity.
    + rewrite (proj2 (Z.leb_le _ _) L). reflexivity.
    + rewrite (proj2 (Z.leb_gt _ _)) by lia. reflexivity.
    + reflexivity.
  - destruct k; [intros []| | |]; intros ->; try destruct (Z.leb_spec (isoweekday t) 5); try (econstructor; eassumption); apply (dv_end t _ I) || apply (dv_sat t _ I); lia.
Qed.

Lemma add_time_main : forall d t k q, is_dict d -> (0 <= t)%Z -> let '(f1, f2, f3) := flags k in exists d',
  add_time d t f1 f2 f3 q = Ok d' /\ is_dict d' /\
  (forall key, key <> "weekday" -> key <> "quarter" -> agree d' d key) /\
  (forall v, has d' "weekday" v <-> day_value t k v) /\
  (forall v, has d' "quarter" v <-> q = true /\ exists n, v = VInt n /\ quarter_of (month (date_at t)) n).
Proof.
  intros d t k q H Ht. destruct (flags k) as [[f1 f2] f3] eqn:F.
  assert (X : exists d1, is_dict d1 /\ (forall key, key <> "weekday" -> agree d1 d key) /\ (forall v, has d1 "weekday" v <-> day_value t k v) /\
    add_time d t f1 f2 f3 q = Ok (if q then set_key d1 "quarter" (VInt ((month (date_at t) - 1) / 3 + 1)) else pop d1 "quarter")).
  { assert (Y : exists d1, is_dict d1 /\ (forall key, key <> "weekday" -> agree d1 d key) /\ (forall v, has d1 "weekday" v <-> day_value t k v) /\
      d1 = if f1 then set_key d "weekday" (if (isoweekday t <=? 5)%Z then week else week_end)
           else if f2 then set_key d "weekday" (if (isoweekday t <=? 5)%Z then week else VInt (isoweekday t))
           else if f3 then set_key d "weekday" (VInt (isoweekday t)) else pop d "weekday").
    { eexists. split; [|split; [|split; [|reflexivity]]]; destruct k; cbn in F; injection F as <- <- <-.
      all: try (apply set_dict; exact H); try (apply pop_dict; exact H).
      all: try (intros key N v; apply set_other; assumption); try (intros key N v; apply pop_other; assumption).
      all: intro v; rewrite day_value_choice; try apply set_same, H. split; [apply pop_same, H|intros []]. }
    destruct Y as (d1 & A & B & C & E). exists d1. split; [exact A|]. split; [exact B|]. split; [exact C|]. rewrite E. unfold add_time. destruct k; cbn in F; injection F as <- <- <-; reflexivity. }
  destruct X as (d1 & A & B & C & E). eexists. split; [exact E|]. destruct q.
  - split; [apply set_dict, A|]. split; [|split].
    + intros key N1 N2 v. unfold agree, has in *. pose proof (set_other d1 "quarter" (VInt ((month (date_at t) - 1) / 3 + 1)) key v A N2) as S. unfold has in S. rewrite S. apply B, N1.
    + intro v. rewrite set_other; [apply C|exact A|discriminate].
    + intro v. rewrite set_same by exact A. split.
      * intros ->. split; [reflexivity|]. eexists. split; [reflexivity|]. apply quarter_value; [exact Ht|reflexivity].
      * intros (_ & n & -> & Q). apply quarter_value in Q; [|exact Ht]. rewrite Q. reflexivity.
  - split; [apply pop_dict, A|]. split; [|split].
    + intros key N1 N2 v. pose proof (pop_other d1 "quarter" key v A N2) as S. unfold has in S. rewrite S. apply B, N1.
    + intro v. rewrite pop_other; [apply C|exact A|discriminate].
    + intro v. split; [intro I; destruct (pop_same _ _ _ A I)|intros (X & _); discriminate].
Qed.

Lemma remove_pops : forall d, remove_time_attributues d = pop (pop d "weekday") "quarter".
Proof.
  intro d. unfold remove_time_attributues. assert (P : forall d k, match get d k with Some _ => pop d k | None => d end = pop d k).
  { intros d0 k. destruct (get d0 k) eqn:E; [reflexivity|]. symmetry. apply pop_absent. apply (dget_none_notin _ _ String.eqb String.eqb_eq) in E. exact E. }
  rewrite !P. reflexivity.
Qed.

Lemma remove_add : forall d t f1 f2 f3 q d', is_dict d -> add_time d t f1 f2 f3 q = Ok d' -> remove_time_attributues d' = remove_time_attributues d.
Proof.
  intros d t f1 f2 f3 q d' H E. unfold add_time in E. match type of E with (if ?b then _ else _) = _ => destruct b; [discriminate|] end. injection E as <-. rewrite !remove_pops.
  assert (Q : forall d1 v, pop (pop (if q then set_key d1 "quarter" v else pop d1 "quarter") "weekday") "quarter" = pop (pop d1 "weekday") "quarter" \/ ~ is_dict d1).
  { intros d1 v. destruct q; [left; rewrite pop_set_comm by discriminate; apply pop_set|]. destruct (ListDec.NoDup_dec string_dec (map fst d1)) as [N|N]; [|right; exact N]. left. rewrite (pop_comm d1), pop_twice; [reflexivity|apply pop_dict, N]. }
  assert (W : forall v, pop (set_key d "weekday" v) "weekday" = pop d "weekday") by (intro v; apply pop_set).
  match goal with |- pop (pop (if q then set_key ?d1 "quarter" ?v else _) _) _ = _ => destruct (Q d1 v) as [->|N] end.
  - destruct f1; [|destruct f2; [|destruct f3]]; rewrite ?W; try reflexivity. rewrite pop_twice by exact H. reflexivity.
  - exfalso. apply N. destruct f1; [|destruct f2; [|destruct f3]]; try apply set_dict; try apply pop_dict; exact H.
Qed.

Lemma value_eqb_eq : forall a b, value_eqb a b = true <-> a = b.
Proof.
  intros [x|l] [y|m]; cbn; try (split; discriminate).
  - rewrite Z.eqb_eq. split; congruence.
  - destruct (list_eq_dec Z.eq_dec l m); split; congruence.
Qed.

(** ** Persons *)
Lemma is_int_spec : forall d k n, is_dict d -> (is_int (get d k) n = true <-> has d k (VInt n)).
Proof.
  intros d k n H. rewrite <- (get_has d k (VInt n) H). unfold is_int. destruct (get d k) as [[z|l]|]; try (split; discriminate). rewrite Z.eqb_eq. split; congruence.
Qed.

Section Person.
Variable hh : subgroup.
Hypothesis H : is_dict hh.

Definition base : subgroup := pop (pop hh "n_residents") "household_type".

Lemma base_dict : is_dict base.
Proof. apply pop_dict, pop_dict, H. Qed.

Lemma base_other : forall k v, k <> "n_residents" -> k <> "household_type" -> (has base k v <-> has hh k v).
Proof. intros k v N1 N2. unfold base. rewrite pop_other; [|apply pop_dict, H|exact N2]. apply pop_other; assumption. Qed.

Lemma base_n : lacks base "n_residents".
Proof. intros v I. unfold base in I. apply pop_other in I; [|apply pop_dict, H|discriminate]. exact (pop_same _ _ _ H I). Qed.

Lemma base_t : lacks base "household_type".
Proof. intros v I. unfold base in I. exact (pop_same _ _ _ (pop_dict _ _ H) I). Qed.

Lemma base_person : person_of hh base.
Proof.
  split; [apply base_dict|]. split; [apply base_n|]. split; [apply base_t|]. split; [|split; [|split; [|split]]].
  - intros k N v. apply base_other; intro E; subst; apply N; cbn; tauto.
  - intros v I. left. apply base_other in I; [exact I|discriminate|discriminate].
  - intros v I. apply base_other; [discriminate|discriminate|exact I].
  - intros v I. apply base_other in I; [exact I|discriminate|discriminate].
  - intros v I. left. apply base_other in I; [exact I|discriminate|discriminate].
Qed.

Lemma position_person : forall n, In (VInt n) [VInt 1; VInt 2; VInt 3] -> person_of hh (set_key base "household_position" (VInt n)).
Proof.
  intros n Hn. pose proof base_dict as B. split; [apply set_dict, B|].
  assert (O : forall k v, k <> "household_position" -> (has (set_key base "household_position" (VInt n)) k v <-> has base k v)) by (intros; apply set_other; assumption).
  split; [intros v I; apply O in I; [exact (base_n v I)|discriminate]|]. split; [intros v I; apply O in I; [exact (base_t v I)|discriminate]|]. split; [|split; [|split; [|split]]].
  - intros k N v. pose proof (O k v ltac:(intro E; subst; apply N; cbn; tauto)) as S. unfold has in S. rewrite S. apply base_other; intro E; subst; apply N; cbn; tauto.
  - intros v I. left. apply O in I; [|discriminate]. apply base_other in I; [exact I|discriminate|discriminate].
  - intros v I. apply O; [discriminate|]. apply base_other; [discriminate|discriminate|exact I].
  - intros v I. apply O in I; [|discriminate]. apply base_other in I; [exact I|discriminate|discriminate].
  - intros v I. right. apply set_same in I; [|exact B]. subst v. exact Hn.
Qed.

Lemma age_person : forall a, lacks hh "age" -> has hh "hh_mean_age" a -> person_of hh (set_key (pop base "hh_mean_age") "age" a).
Proof.
  intros a L A. pose proof base_dict as B. pose proof (pop_dict _ "hh_mean_age" B) as B'. split; [apply set_dict, B'|].
  assert (O : forall k v, k <> "age" -> k <> "hh_mean_age" -> (has (set_key (pop base "hh_mean_age") "age" a) k v <-> has base k v)) by (intros; rewrite set_other by assumption; apply pop_other; assumption).
  split; [intros v I; apply O in I; [exact (base_n v I)|discriminate|discriminate]|]. split; [intros v I; apply O in I; [exact (base_t v I)|discriminate|discriminate]|]. split; [|split; [|split; [|split]]].
  - intros k N v. pose proof (O k v ltac:(intro E; subst; apply N; cbn; tauto) ltac:(intro E; subst; apply N; cbn; tauto)) as S. unfold has in S. rewrite S. apply base_other; intro E; subst; apply N; cbn; tauto.
  - intros v I. right. apply set_same in I; [|exact B']. subst v. split; assumption.
  - intros v I. destruct (L v I).
  - intros v I. apply set_other in I; [|exact B'|discriminate]. destruct (pop_same _ _ _ B I).
  - intros v I. left. apply O in I; [|discriminate|discriminate]. apply base_other in I; [exact I|discriminate|discriminate].
Qed.

Lemma type_get : get (pop hh "n_residents") "household_type" = get hh "household_type".
Proof. unfold get, pop. apply dget_ddel_other; [apply String.eqb_eq|discriminate]. Qed.

Lemma copies_ok : forall d v k l, copies d v k = Ok l -> exists z, v = Some (VInt z) /\ l = repeat d (Z.to_nat (z - k)).
Proof. intros d [[z|m]|] k l E; cbn in E; try discriminate. injection E as <-. exists z. auto. Qed.

Lemma persons_inherit : forall ps, household_to_persons hh = Ok ps -> forall p, In p ps -> person_of hh p.
Proof.
  intros ps E p I. unfold household_to_persons in E. rewrite type_get in E. change (pop (pop hh "n_residents") "household_type") with base in E.
  assert (P1 : forall n, In (VInt n) [VInt 1; VInt 2; VInt 3] -> person_of hh (set_key base "household_position" (VInt n))) by apply position_person.
  destruct (is_int (get hh "household_type") 1 || is_int (get hh "n_residents") 1).
  - destruct (get base "age") as [g|] eqn:Eg; [injection E as <-; destruct I as [<-|[]]; apply base_person|].
    destruct (get base "hh_mean_age") as [a|] eqn:Ea; injection E as <-; destruct I as [<-|[]]; [|apply base_person].
    apply age_person; [|apply (get_has _ _ _ base_dict) in Ea; apply base_other in Ea; [exact Ea|discriminate|discriminate]].
    apply (get_lacks _ _ base_dict) in Eg. intros v Iv. apply (Eg v). apply base_other; [discriminate|discriminate|exact Iv].
  - destruct (is_int (get hh "household_type") 2).
    { injection E as <-. destruct I as [<-|[<-|[]]]; apply P1; cbn; tauto. }
    destruct (is_int (get hh "household_type") 3).
    { destruct (copies _ _ _) as [kids|] eqn:K in E; cbn [bind] in E; [|discriminate]. injection E as <-. destruct I as [<-|I]; [apply P1; cbn; tauto|].
      apply copies_ok in K. destruct K as (z & _ & ->). apply repeat_spec in I. subst p. apply P1; cbn; tauto. }
    destruct (is_int (get hh "household_type") 4).
    { destruct (copies _ _ _) as [kids|] eqn:K in E; cbn [bind] in E; [|discriminate]. injection E as <-. destruct I as [<-|[<-|I]]; [apply P1; cbn; tauto|apply P1; cbn; tauto|].
      apply copies_ok in K. destruct K as (z & _ & ->). apply repeat_spec in I. subst p. apply P1; cbn; tauto. }
    apply copies_ok in E. destruct E as (z & _ & ->). apply repeat_spec in I. subst p. apply base_person.
Qed.

Lemma persons_count : forall n, states_residents hh n -> type_fits hh n -> exists ps, household_to_persons hh = Ok ps /\ length ps = n.
Proof.
  intros n S (F1 & F2 & F3 & F4). unfold household_to_persons. rewrite type_get. change (pop (pop hh "n_residents") "household_type") with base.
  assert (T : forall k, is_int (get hh "household_type") k = true -> has hh "household_type" (VInt k)) by (intros k E; apply is_int_spec; assumption).
  destruct (is_int (get hh "household_type") 1 || is_int (get hh "n_residents") 1) eqn:E1.
  - assert (n = 1) as ->.
    { apply orb_true_iff in E1. destruct E1 as [E1|E1]; [apply F1, T, E1|]. apply (is_int_spec _ _ _ H) in E1. destruct S as [S|(L & _)]; [|destruct (L _ E1)].
      apply (get_has _ _ _ H) in E1, S. rewrite E1 in S. injection S. lia. }
    destruct (get base "age"); [eexists; split; reflexivity|]. destruct (get base "hh_mean_age"); eexists; split; reflexivity.
  - apply orb_false_iff in E1. destruct E1 as (T1 & N1).
    assert (Nn : n <> 1). { intros ->. destruct S as [S|(_ & [(A & _)|(_ & ?)])]; [|apply (is_int_spec _ _ _ H) in A; congruence|discriminate]. apply (is_int_spec _ _ _ H) in S. change (Z.of_nat 1) with 1%Z in S. congruence. }
    destruct (is_int (get hh "household_type") 2) eqn:E2.
    { eexists. split; [reflexivity|]. destruct (F2 (T 2%Z E2)); cbn; lia. }
    assert (G : get hh "n_residents" = Some (VInt (Z.of_nat n))).
    { destruct S as [S|(_ & [(A & _)|(A & _)])]; [apply (get_has _ _ _ H), S|apply (is_int_spec _ _ _ H) in A; congruence|apply (is_int_spec _ _ _ H) in A; congruence]. }
    rewrite G. unfold copies. cbn [bind].
    destruct (is_int (get hh "household_type") 3) eqn:E3.
    { eexists. split; [reflexivity|]. specialize (F3 (T 3%Z E3)). cbn [length]. rewrite repeat_length. lia. }
    destruct (is_int (get hh "household_type") 4) eqn:E4.
    { eexists. split; [reflexivity|]. specialize (F4 (T 4%Z E4)). cbn [length]. rewrite repeat_length. lia. }
    eexists. split; [reflexivity|]. rewrite repeat_length. lia.
Qed.

(** Positions in families. *)
Lemma persons_roles : forall t n, has hh "household_type" (VInt t) -> has hh "n_residents" (VInt (Z.of_nat n)) -> 2 <= n -> (2 <= t <= 4)%Z ->
  exists ps, household_to_persons hh = Ok ps /\ forall i p, nth_error ps i = Some p ->
    has p "household_position" (VInt (if (i =? 0)%nat then 1 else if (i =? 1)%nat && negb (t =? 3)%Z then 2 else 3)).
Proof.
  intros t n T N Hn Ht. apply (get_has _ _ _ H) in T, N. unfold household_to_persons. rewrite type_get, T, N. change (pop (pop hh "n_residents") "household_type") with base. cbn [is_int].
  assert (S : forall m, has (set_key base "household_position" (VInt m)) "household_position" (VInt m)) by (intro m; apply set_same; [apply base_dict|reflexivity]).
  replace (t =? 1)%Z with false by (symmetry; apply Z.eqb_neq; lia). replace (Z.of_nat n =? 1)%Z with false by (symmetry; apply Z.eqb_neq; lia). cbn [orb].
  assert (R : forall (d : subgroup) m i p, nth_error (repeat d m) i = Some p -> p = d) by (intros d m i p E; apply nth_error_In in E; apply repeat_spec in E; exact E).
  destruct (Z.eqb_spec t 2) as [->|N2]; [|destruct (Z.eqb_spec t 3) as [->|N3]; [|destruct (Z.eqb_spec t 4) as [->|N4]; [|lia]]].
  - eexists. split; [reflexivity|]. intros [|[|i]] p E; cbn in E |- *; [injection E as <-; apply S|injection E as <-; apply S|destruct i; discriminate].
  - unfold copies. cbn [bind]. eexists. split; [reflexivity|]. intros [|i] p E; cbn [nth_error] in E; [injection E as <-; apply S|]. apply R in E. subst p.
    replace (Datatypes.S i =? 0)%nat with false by reflexivity. rewrite andb_false_r. apply S.
  - unfold copies. cbn [bind]. eexists. split; [reflexivity|]. intros [|[|i]] p E; cbn [nth_error] in E; [injection E as <-; apply S|injection E as <-; apply S|]. apply R in E. subst p. cbn. apply S.
Qed.
End Person.
