(** * Proofs about appliances started at random: the probabilities and the constructor. *)

From Coq Require Import String List ZArith QArith Bool Arith Lia Lqa.
From Verif Require Import Prelude PreludeFacts SpecBase SpecBaseFacts Parse_Model Appliance_Model Appliance_Spec AppSetup_Model AppSetup_Spec ActApp_Model ActApp_Spec ProbApp_Model ProbApp_Spec.
From Verif Require Import Parse_GroupProofs Matrix_Proofs Appliance_Proofs Appliance_RunProofs Appliance_TypeProofs AppSetup_Proofs AppSetup_InitProofs ActApp_Proofs ProbApp_Proofs ProbApp_StepProofs ProbApp_RunProofs.
Import ListNotations.
Local Open Scope nat_scope.

(** ** Writing into the table *)

Lemma at_combine : forall A B (l : list A) (m : list B) i x y, at_ (combine l m) i (x, y) <-> at_ l i x /\ at_ m i y.
Proof.
  induction l as [|a l IH]; intros [|b m] [|i] x y; unfold at_ in *; simpl; try (split; [discriminate|intros [? ?]; discriminate]).
  - split; [intro E; injection E as -> ->; auto|intros [E F]; congruence].
  - apply IH.
Qed.

Lemma set_at : forall hh apps values m h j b a v p, at_ hh h b -> at_ apps j a -> at_ values j v -> at2 m h j p ->
  at2 (set_probs hh apps values m) h j (if b && a then v else p).
Proof.
  intros hh apps values m h j b a v p Hb Ha Hv (row & Hr & Hp). unfold set_probs. eexists. split.
  - apply at_map2. exists b, row. split; [exact Hb|]. split; [exact Hr|reflexivity].
  - destruct b; cbn [andb]; [|exact Hp]. apply at_map2. exists (a, v), p. split; [apply at_combine; auto|]. split; [exact Hp|reflexivity].
Qed.

Lemma set_shape : forall n k hh apps values m, shaped n k m -> length hh = n -> length apps = k -> length values = k -> shaped n k (set_probs hh apps values m).
Proof.
  intros n k hh apps values m [H1 H2] Lh La Lv. unfold set_probs. split; [rewrite map2_length; lia|]. intros h row E. apply at_map2 in E.
  destruct E as (b & r & _ & Er & ->). destruct b; [|eauto]. rewrite map2_length, combine_length, (H2 _ _ Er). lia.
Qed.

Section Table.
  Variables (step : Q) (apps : list app) (related af fo : list string) (ts : list Q) (res : Q) (starts : list (string * list Q)) (hh : list bool) (n : nat).
  Hypothesis Lr : length related = length apps.
  Hypothesis La : length af = length apps.
  Hypothesis Lf : length fo = length apps.
  Hypothesis Lt : length ts = length apps.
  Hypothesis Lh : length hh = n.

  Lemma turn_shape : forall m item m', activity_probs_turn step apps related af ts res starts hh m item = Ok m' -> shaped n (length apps) m -> shaped n (length apps) m'.
  Proof.
    intros m [act prob] m' H S. unfold activity_probs_turn in H. destruct (dget _ _ _) as [pdf|]; [|discriminate]. injection H as <-.
    apply set_shape; [|exact Lh|rewrite map_length; exact La|rewrite map_length; exact Lt]. apply set_shape; [exact S|exact Lh|rewrite map_length; exact Lr|]. rewrite map2_length. lia.
  Qed.

  Lemma fold_shape : forall items m m', fold_result (activity_probs_turn step apps related af ts res starts hh) items m = Ok m' -> shaped n (length apps) m -> shaped n (length apps) m'.
  Proof.
    induction items as [|x items IH]; intros m m' H S; cbn [fold_result] in H; [injection H as <-; exact S|].
    destruct (activity_probs_turn _ _ _ _ _ _ _ _ _ _) as [m1|] eqn:E; [|discriminate]. cbn [bind] in H. eapply IH; [exact H|]. eapply turn_shape; eauto.
  Qed.

  Variables (h j : nat) (b : bool) (a : app) (r s t : string) (x : Q).
  Hypothesis Hb : at_ hh h b.
  Hypothesis Ha : at_ apps j a.
  Hypothesis Hr : at_ related j r.
  Hypothesis Hs : at_ af j s.
  Hypothesis Ht : at_ fo j t.
  Hypothesis Hx : at_ ts j x.

  Lemma turn_value : forall m act prob m' p, activity_probs_turn step apps related af ts res starts hh m (act, prob) = Ok m' -> at2 m h j p ->
    exists pdf, dget String.eqb starts act = Some pdf /\
      at2 m' h j (if b && String.eqb act s then chance_div x (starts_of_year pdf res) else if b && String.eqb act r then activity_chance step prob (ap_duration a) x else p).
  Proof.
    intros m act prob m' p H Hp. unfold activity_probs_turn in H. destruct (dget _ _ _) as [pdf|]; [|discriminate]. injection H as <-. exists pdf. split; [reflexivity|].
    apply set_at; [exact Hb|apply at_map; eauto|apply at_map; eauto|]. apply set_at; [exact Hb|apply at_map; eauto|apply at_map2; eauto|exact Hp].
  Qed.

  Lemma fold_none : forall items m m' p, fold_result (activity_probs_turn step apps related af ts res starts hh) items m = Ok m' -> at2 m h j p ->
    (b = false \/ (~ In r (map fst items) /\ ~ In s (map fst items))) -> at2 m' h j p.
  Proof.
    induction items as [|[act prob] items IH]; intros m m' p H Hp N; cbn [fold_result] in H; [injection H as <-; exact Hp|].
    destruct (activity_probs_turn _ _ _ _ _ _ _ _ _ _) as [m1|] eqn:E; [|discriminate]. cbn [bind] in H. destruct (turn_value _ _ _ _ _ E Hp) as (pdf & _ & V).
    eapply IH; [exact H| |].
    - destruct N as [->|[N1 N2]]; [exact V|]. cbn [map fst] in N1, N2. destruct (String.eqb_spec act s) as [->|_]; [exfalso; apply N2; left; reflexivity|].
      destruct (String.eqb_spec act r) as [->|_]; [exfalso; apply N1; left; reflexivity|]. rewrite !andb_false_r in V. exact V.
    - destruct N as [N|[N1 N2]]; [auto|]. right. split; intro X; [apply N1|apply N2]; right; exact X.
  Qed.

  Lemma fold_some : forall items m m' p, fold_result (activity_probs_turn step apps related af ts res starts hh) items m = Ok m' -> at2 m h j p -> exists q, at2 m' h j q.
  Proof.
    induction items as [|[act prob] items IH]; intros m m' p H Hp; cbn [fold_result] in H; [injection H as <-; eauto|].
    destruct (activity_probs_turn _ _ _ _ _ _ _ _ _ _) as [m1|] eqn:E; [|discriminate]. cbn [bind] in H. destruct (turn_value _ _ _ _ _ E Hp) as (pdf & _ & V). eapply IH; eauto.
  Qed.

  Lemma fold_activity : forall items m m' p prob, fold_result (activity_probs_turn step apps related af ts res starts hh) items m = Ok m' -> at2 m h j p ->
    b = true -> NoDup (map fst items) -> In (r, prob) items -> ~ In s (map fst items) -> at2 m' h j (activity_chance step prob (ap_duration a) x).
  Proof.
    induction items as [|[act prob'] items IH]; intros m m' p prob H Hp B ND I Ns; [contradiction|]. cbn [fold_result] in H.
    destruct (activity_probs_turn _ _ _ _ _ _ _ _ _ _) as [m1|] eqn:E; [|discriminate]. cbn [bind] in H. destruct (turn_value _ _ _ _ _ E Hp) as (pdf & _ & V).
    cbn [map fst] in ND, Ns. apply NoDup_cons_iff in ND. destruct ND as [N ND']. rewrite B in V. destruct (String.eqb_spec act s) as [->|_]; [exfalso; apply Ns; left; reflexivity|].
    destruct I as [I|I].
    - injection I as -> ->. rewrite String.eqb_refl in V. cbn [andb] in V. eapply fold_none; [exact H|exact V|]. right. split; [exact N|]. intro X. apply Ns. right. exact X.
    - eapply IH; [exact H|exact V|exact B|exact ND'|exact I|]. intro X. apply Ns. right. exact X.
  Qed.

  Lemma fold_after : forall items m m' p prob, fold_result (activity_probs_turn step apps related af ts res starts hh) items m = Ok m' -> at2 m h j p ->
    b = true -> NoDup (map fst items) -> In (s, prob) items -> (r = s \/ ~ In r (map fst items)) ->
    exists pdf, dget String.eqb starts s = Some pdf /\ at2 m' h j (chance_div x (starts_of_year pdf res)).
  Proof.
    induction items as [|[act prob'] items IH]; intros m m' p prob H Hp B ND I Nr; [contradiction|]. cbn [fold_result] in H.
    destruct (activity_probs_turn _ _ _ _ _ _ _ _ _ _) as [m1|] eqn:E; [|discriminate]. cbn [bind] in H. destruct (turn_value _ _ _ _ _ E Hp) as (pdf & Ed & V).
    cbn [map fst] in ND, Nr. apply NoDup_cons_iff in ND. destruct ND as [N ND']. rewrite B in V. destruct I as [I|I].
    - injection I as -> ->. rewrite String.eqb_refl in V. cbn [andb] in V. exists pdf. split; [exact Ed|]. eapply fold_none; [exact H|exact V|]. right. split; [|exact N].
      destruct Nr as [->|Nr]; [exact N|]. intro X. apply Nr. right. exact X.
    - eapply IH; [exact H|exact V|exact B|exact ND'|exact I|]. destruct Nr as [->|Nr]; [auto|]. right. intro X. apply Nr. right. exact X.
  Qed.

  Lemma follow_shape : forall m, shaped n (length apps) m -> shaped n (length apps) (follow_probs apps fo ts hh m).
  Proof. intros m S. unfold follow_probs. apply set_shape; [exact S|exact Lh|rewrite map_length; exact Lf|]. rewrite map2_length. lia. Qed.

  Lemma follow_value : forall m p, at2 m h j p ->
    at2 (follow_probs apps fo ts hh m) h j (if b && str_in t (map ap_type apps) then chance_div x (type_total (map ap_type apps) ts t) else p).
  Proof.
    intros m p Hp. unfold follow_probs. apply set_at; [exact Hb|apply at_map; eauto| |exact Hp]. apply at_map2. eauto.
  Qed.
End Table.

(** ** Values *)

Lemma quotient_div : forall a b, quotient a b (chance_div a b).
Proof.
  intros a b. unfold quotient, chance_div. destruct (Qeq_bool b 0) eqn:E.
  - apply Qeq_bool_iff in E. split; [intro N; contradiction|]. split; intros _ A.
    + rewrite (proj2 (Qltb_lt 0 a) A). reflexivity.
    + destruct (Qltb 0 a) eqn:L; [apply Qltb_lt in L; lra|reflexivity].
  - assert (N : ~ (b == 0)%Q) by (intro X; apply Qeq_bool_iff in X; congruence). split; [|split; intro X; contradiction].
    intros _. exists (a / b)%Q. split; [reflexivity|]. field. exact N.
Qed.

Lemma q_div_eq : forall a b, ~ (b == 0)%Q -> (a / b * b == a)%Q.
Proof. intros a b N. field. exact N. Qed.

Lemma len_nz : forall A (l : list A), l <> [] -> ~ (inject_Z (Z.of_nat (length l)) == 0)%Q.
Proof. intros A l N X. unfold Qeq in X. simpl in X. destruct l; [contradiction|]. cbn [length] in X. lia. Qed.

Lemma mean_average : forall l, l <> [] -> exists m, q_mean l = Some m /\ average l m.
Proof.
  intros l N. destruct l as [|y l]; [contradiction|]. eexists. split; [reflexivity|]. split; [exact N|]. change (qsum (y :: l) / inject_Z (Z.of_nat (length (y :: l))) * inject_Z (Z.of_nat (length (y :: l))) == total (y :: l))%Q. rewrite q_div_eq by (apply len_nz; exact N). rewrite <- (total_qsum (y :: l)). reflexivity.
Qed.

Lemma average_fun : forall l m m', average l m -> average l m' -> (m == m')%Q.
Proof.
  intros l m m' [N A] [_ B]. pose proof (len_nz _ l N) as Z. assert (X : (m * inject_Z (Z.of_nat (length l)) == m' * inject_Z (Z.of_nat (length l)))%Q) by (rewrite A, B; reflexivity).
  apply Qmult_inj_r in X; [exact X|exact Z].
Qed.

Lemma chance_value : forall step prob dur x m year, average prob m -> ~ (step == 0)%Q -> (year * step == seconds_of_year)%Q ->
  exists p, activity_chance step prob dur x = Fin p /\
    (1 <= year * m - dur * x -> p * (year * m - dur * x) == x)%Q /\ (year * m - dur * x < 1 -> p == x)%Q.
Proof.
  intros step prob dur x m year A Ns Ey. destruct (mean_average prob (proj1 A)) as (m' & Em & A'). unfold activity_chance. rewrite Em.
  pose proof (average_fun _ _ _ A A') as Eq. eexists. split; [reflexivity|].
  assert (Ey' : (steps_of_year step == year)%Q).
  { unfold steps_of_year. apply (Qmult_inj_r _ _ step Ns). rewrite q_div_eq by exact Ns. rewrite Ey. unfold seconds_of_year. reflexivity. }
  assert (P : (steps_of_year step * m' - dur * x == year * m - dur * x)%Q) by (rewrite Ey', <- Eq; reflexivity).
  destruct (Qltb (steps_of_year step * m' - dur * x) 1) eqn:E.
  - apply Qltb_lt in E. split; intro L; [lra|]. field.
  - assert (L1 : (1 <= steps_of_year step * m' - dur * x)%Q).
    { destruct (Qlt_le_dec (steps_of_year step * m' - dur * x) 1) as [L|L]; [|exact L]. apply Qltb_lt in L. congruence. }
    split; intro L; [|lra]. rewrite <- P. apply q_div_eq. lra.
Qed.

Lemma index_from : forall pdf k, (qsum (map2 (fun i p => p * inject_Z (Z.of_nat i)) (seq k (length pdf)) pdf)
   == total (map (fun i => inject_Z (Z.of_nat i) * nth (i - k) pdf 0) (seq k (length pdf))))%Q.
Proof.
  intros pdf k. rewrite <- total_qsum. revert k. induction pdf as [|y pdf IH]; intro k; [reflexivity|]. cbn [length seq map2 map]. unfold total in *. cbn [fold_right].
  rewrite IH, Nat.sub_diag. assert (E : map (fun i => (inject_Z (Z.of_nat i) * nth (i - k) (y :: pdf) 0)%Q) (seq (S k) (length pdf)) = map (fun i => (inject_Z (Z.of_nat i) * nth (i - S k) pdf 0)%Q) (seq (S k) (length pdf))).
  { apply map_ext_in. intros i I. apply in_seq in I. replace (i - k) with (S (i - S k)) by lia. reflexivity. }
  rewrite E. change (nth 0 (y :: pdf) 0%Q) with y. ring.
Qed.

Lemma mean_expected : forall pdf, (mean_index pdf == expected pdf)%Q.
Proof.
  intro pdf. unfold mean_index, expected. rewrite index_from. assert (E : map (fun i => (inject_Z (Z.of_nat i) * nth (i - 0) pdf 0)%Q) (seq 0 (length pdf)) = map (fun i => (inject_Z (Z.of_nat i) * nth i pdf 0)%Q) (seq 0 (length pdf))).
  { apply map_ext. intro i. rewrite Nat.sub_0_r. reflexivity. } rewrite E. reflexivity.
Qed.

Lemma type_total_spec : forall types ts t, (type_total types ts t == targets_of types ts t)%Q.
Proof.
  intros types ts t. unfold type_total, targets_of. rewrite <- total_qsum. revert ts. induction types as [|y types IH]; intros [|q ts]; try reflexivity.
  cbn [map2 combine filter fst]. unfold total in *. destruct (String.eqb y t); cbn [map snd fold_right]; rewrite IH; ring.
Qed.

Lemma quotient_eq : forall a b b' c, (b == b')%Q -> quotient a b c -> quotient a b' c.
Proof.
  intros a b b' c E (Q1 & Q2 & Q3). split; [|split].
  - intro N. destruct Q1 as (p & -> & X); [rewrite E; exact N|]. exists p. split; [reflexivity|]. rewrite <- E. exact X.
  - intro Z. apply Q2. rewrite E. exact Z.
  - intro Z. apply Q3. rewrite E. exact Z.
Qed.

(** ** The subgroups *)

Lemma at_seq_combine : forall A (l : list A) k i x, In (i, x) (combine (seq k (length l)) l) <-> k <= i /\ at_ l (i - k) x.
Proof.
  induction l as [|y l IH]; intros k i x; cbn [length seq combine].
  - split; [intros []|]. intros [_ H]. unfold at_ in H. destruct (i - k); discriminate.
  - cbn [In]. rewrite IH. split.
    + intros [E|[L H]]; [injection E as <- <-; rewrite Nat.sub_diag; split; [lia|reflexivity]|]. split; [lia|]. unfold at_ in *. replace (i - k) with (S (i - S k)) by lia. exact H.
    + intros [L H]. destruct (Nat.eq_dec i k) as [->|N]; [left; rewrite Nat.sub_diag in H; injection H as ->; reflexivity|].
      right. split; [lia|]. unfold at_ in *. replace (i - k) with (S (i - S k)) in H by lia. exact H.
Qed.

Section Groups.
  Variables (step : Q) (apps : list app) (related af fo : list string) (hh_types : list nat).
  Hypothesis Lr : length related = length apps.
  Hypothesis La : length af = length apps.
  Hypothesis Lf : length fo = length apps.
  Let n := length hh_types.

  Definition good (g : group_data) : Prop := NoDup (map fst (g_probs g)) /\ forall ts, g_targets g = Ok ts -> length ts = length apps.

  Lemma group_shape : forall m k g m', good g -> group_turn step apps related af fo hh_types m (k, g) = Ok m' -> shaped n (length apps) m -> shaped n (length apps) m'.
  Proof.
    intros m k g m' [_ G] H S. unfold group_turn in H. destruct (g_targets g) as [ts|] eqn:Et; [|discriminate]. cbn [bind] in H.
    destruct (fold_result _ _ _) as [m1|] eqn:E; [|discriminate]. cbn [bind] in H. injection H as <-.
    assert (Lm : length (map (Nat.eqb k) hh_types) = n) by apply map_length.
    apply follow_shape with (related := related) (af := af); auto. eapply fold_shape with (fo := fo); [exact Lr|exact La|exact Lf|apply G; reflexivity|exact Lm|exact E|exact S].
  Qed.

  Lemma groups_shape : forall gs m m', (forall k g, In (k, g) gs -> good g) -> fold_result (group_turn step apps related af fo hh_types) gs m = Ok m' ->
    shaped n (length apps) m -> shaped n (length apps) m'.
  Proof.
    induction gs as [|[k g] gs IH]; intros m m' G H S; cbn [fold_result] in H; [injection H as <-; exact S|].
    destruct (group_turn _ _ _ _ _ _ _ _) as [m1|] eqn:E; [|discriminate]. cbn [bind] in H. eapply IH; [|exact H|].
    - intros k' g' I. apply (G k' g'). right. exact I.
    - eapply group_shape; [apply (G k g); left; reflexivity|exact E|exact S].
  Qed.

  Variables (h j i : nat) (a : app) (r s t : string).
  Hypothesis Hh : at_ hh_types h i.
  Hypothesis Ha : at_ apps j a.
  Hypothesis Hr : at_ related j r.
  Hypothesis Hs : at_ af j s.
  Hypothesis Ht : at_ fo j t.

  Lemma mask_hh : forall k, at_ (map (Nat.eqb k) hh_types) h (Nat.eqb k i).
  Proof. intro k. apply at_map. eauto. Qed.

  Lemma group_other : forall m k g m' p, good g -> group_turn step apps related af fo hh_types m (k, g) = Ok m' -> at2 m h j p -> k <> i -> at2 m' h j p.
  Proof.
    intros m k g m' p [_ G] H Hp N. unfold group_turn in H. destruct (g_targets g) as [ts|] eqn:Et; [|discriminate]. cbn [bind] in H.
    destruct (fold_result _ _ _) as [m1|] eqn:E; [|discriminate]. cbn [bind] in H. injection H as <-. pose proof (G ts eq_refl) as Lt.
    destruct (lt_at _ ts j) as [x Hx]; [rewrite Lt; exact (at_lt _ _ _ _ Ha)|]. pose proof (mask_hh k) as Hb. rewrite (proj2 (Nat.eqb_neq k i) N) in Hb.
    apply (follow_value apps fo ts _ h j false t x Hb Ht Hx).
    eapply (fold_none step apps related af ts _ _ _ h j false a r s x Hb Ha Hr Hs Hx); [exact E|exact Hp|]. left. reflexivity.
  Qed.

  Lemma groups_other : forall gs m m' p, (forall k g, In (k, g) gs -> good g) -> fold_result (group_turn step apps related af fo hh_types) gs m = Ok m' ->
    at2 m h j p -> ~ In i (map fst gs) -> at2 m' h j p.
  Proof.
    induction gs as [|[k g] gs IH]; intros m m' p G H Hp N; cbn [fold_result] in H; [injection H as <-; exact Hp|].
    destruct (group_turn _ _ _ _ _ _ _ _) as [m1|] eqn:E; [|discriminate]. cbn [bind] in H. eapply IH; [|exact H| |].
    - intros k' g' I. apply (G k' g'). right. exact I.
    - eapply group_other; [apply (G k g); left; reflexivity|exact E|exact Hp|]. intro X. apply N. left. exact X.
    - intro X. apply N. right. exact X.
  Qed.

  (** The value in a household comes from the turn of its subgroup. *)
  Lemma groups_own : forall gs m m' p g, (forall k g, In (k, g) gs -> good g) -> fold_result (group_turn step apps related af fo hh_types) gs m = Ok m' ->
    at2 m h j p -> NoDup (map fst gs) -> In (i, g) gs ->
    exists m1 m2, group_turn step apps related af fo hh_types m1 (i, g) = Ok m2 /\ at2 m1 h j p /\ forall q, at2 m2 h j q -> at2 m' h j q.
  Proof.
    induction gs as [|[k g0] gs IH]; intros m m' p g G H Hp ND I; [contradiction|]. cbn [fold_result] in H.
    destruct (group_turn _ _ _ _ _ _ _ _) as [m1|] eqn:E; [|discriminate]. cbn [bind] in H. cbn [map fst] in ND. apply NoDup_cons_iff in ND. destruct ND as [N ND'].
    assert (G' : forall k g, In (k, g) gs -> good g) by (intros k' g' I'; apply (G k' g'); right; exact I').
    destruct I as [I|I].
    - injection I as -> ->. exists m, m1. split; [exact E|]. split; [exact Hp|]. intros q Hq. eapply groups_other; eauto.
    - eapply IH; eauto. eapply group_other; [apply (G k g0); left; reflexivity|exact E|exact Hp|]. intros ->. apply N. apply in_map_iff. exists (i, g). auto.
  Qed.
End Groups.

Lemma start_zero : forall (hh_types : list nat) (apps : list app) h j i a, at_ hh_types h i -> at_ apps j a -> at2 (map (fun _ => map (fun _ => Fin 0) apps) hh_types) h j (Fin 0).
Proof. intros hh_types apps h j i a Hh Ha. eexists. split; [apply at_map; eauto|]. apply at_map. eauto. Qed.

Lemma start_shape : forall (hh_types : list nat) (apps : list app), shaped (length hh_types) (length apps) (map (fun _ => map (fun _ => Fin 0) apps) hh_types).
Proof. intros. split; [apply map_length|]. intros h row E. apply at_map in E. destruct E as (x & _ & ->). apply map_length. Qed.

Lemma numbered_nodup : forall A (l : list A) k, map fst (combine (seq k (length l)) l) = seq k (length l).
Proof. induction l as [|y l IH]; intro k; [reflexivity|]. cbn [length seq combine map fst]. rewrite IH. reflexivity. Qed.

Section Values.
  Variables (step : Q) (apps : list app) (related af fo : list string) (hh_types : list nat) (groups : list group_data) (m : list (list chance)).
  Hypothesis T : tabled apps related af fo groups.
  Hypothesis H : sample_switch_on_probs step apps related (Some af) (Some fo) hh_types groups = Ok m.

  Lemma all_good : forall k g, In (k, g) (combine (seq 0 (length groups)) groups) -> good apps g.
  Proof. intros k g I. destruct T as (_ & _ & _ & G). apply G. apply at_seq_combine in I. destruct I as [_ I]. eapply at_in. exact I. Qed.

  Lemma probs_shape : shaped (length hh_types) (length apps) m.
  Proof.
    destruct T as (L1 & L2 & L3 & _). eapply (groups_shape step apps related af fo hh_types L1 L2 L3); [exact all_good|exact H|apply start_shape].
  Qed.

  Lemma probs_value : forall h j g a r s t, in_group hh_types groups h g -> at_ apps j a -> at_ related j r -> at_ af j s -> at_ fo j t ->
    exists ts x, g_targets g = Ok ts /\ at_ ts j x /\
      (In t (map ap_type apps) -> exists c, at2 m h j c /\ quotient x (targets_of (map ap_type apps) ts t) c) /\
      (~ In t (map ap_type apps) ->
         (forall prob, In (s, prob) (g_probs g) -> r = s \/ ~ In r (map fst (g_probs g)) ->
            exists pdf c, dget String.eqb (g_starts g) s = Some pdf /\ at2 m h j c /\
              quotient x ((36525 # 100) * expected pdf * match g_residents g with None => 23 # 10 | Some q => q end) c) /\
         (forall prob mu year, In (r, prob) (g_probs g) -> ~ In s (map fst (g_probs g)) -> average prob mu -> ~ (step == 0)%Q -> (year * step == seconds_of_year)%Q ->
            exists p, at2 m h j (Fin p) /\ (1 <= year * mu - ap_duration a * x -> p * (year * mu - ap_duration a * x) == x)%Q /\
              (year * mu - ap_duration a * x < 1 -> p == x)%Q) /\
         (~ In r (map fst (g_probs g)) -> ~ In s (map fst (g_probs g)) -> at2 m h j (Fin 0))).
  Proof.
    intros h j g a r s t (i & Hh & Hg) Ha Hr Hs Ht. pose proof T as (L1 & L2 & L3 & G).
    assert (I : In (i, g) (combine (seq 0 (length groups)) groups)) by (apply at_seq_combine; split; [lia|rewrite Nat.sub_0_r; exact Hg]).
    destruct (groups_own step apps related af fo hh_types h j i a r s t Hh Ha Hr Hs Ht _ _ m (Fin 0) g all_good H) as (m1 & m2 & E & P & Q).
    { eapply start_zero; eauto. } { rewrite numbered_nodup. apply seq_NoDup. } { exact I. }
    destruct (G g (at_in _ _ _ _ Hg)) as [ND Lts]. unfold group_turn in E. destruct (g_targets g) as [ts|] eqn:Et; [|discriminate]. cbn [bind] in E.
    destruct (fold_result _ _ _) as [m3|] eqn:E3; [|discriminate]. cbn [bind] in E. injection E as <-. pose proof (Lts ts eq_refl) as Lt.
    destruct (lt_at _ ts j) as [x Hx]; [rewrite Lt; exact (at_lt _ _ _ _ Ha)|]. exists ts, x. split; [reflexivity|]. split; [exact Hx|].
    assert (Hb : at_ (map (Nat.eqb i) hh_types) h true) by (apply at_map; exists i; rewrite Nat.eqb_refl; auto).
    assert (F : forall p, at2 m3 h j p -> at2 m h j (if str_in t (map ap_type apps) then chance_div x (type_total (map ap_type apps) ts t) else p)).
    { intros p Hp. apply Q. apply (follow_value apps fo ts _ h j true t x Hb Ht Hx). exact Hp. }
    split.
    - intro In_t. destruct (str_in t (map ap_type apps)) eqn:Es; [|apply str_in_In in In_t; congruence].
      destruct (fold_some step apps related af ts _ _ _ h j true a r s x Hb Ha Hr Hs Hx _ _ _ _ E3 P) as [q Hq]. apply F in Hq.
      eexists. split; [exact Hq|]. eapply quotient_eq; [apply type_total_spec|apply quotient_div].
    - intro Nt. assert (Es : str_in t (map ap_type apps) = false). { destruct (str_in t (map ap_type apps)) eqn:Es; [apply str_in_In in Es; contradiction|reflexivity]. }
      rewrite Es in F. split; [|split].
      + intros prob Is Nr. destruct (fold_after step apps related af ts _ _ _ h j true a r s x Hb Ha Hr Hs Hx _ _ _ _ prob E3 P eq_refl ND Is Nr) as (pdf & Ed & V).
        exists pdf, (chance_div x (starts_of_year pdf match g_residents g with None => (23 # 10)%Q | Some q => q end)). split; [exact Ed|]. split; [apply F; exact V|].
        eapply quotient_eq; [|apply quotient_div]. unfold starts_of_year. rewrite mean_expected. reflexivity.
      + intros prob mu year Ir Ns Av Nz Ey. pose proof (fold_activity step apps related af ts _ _ _ h j true a r s x Hb Ha Hr Hs Hx _ _ _ _ prob E3 P eq_refl ND Ir Ns) as V.
        destruct (chance_value step prob (ap_duration a) x mu year Av Nz Ey) as (p & Ep & C). rewrite Ep in V. exists p. split; [apply F; exact V|exact C].
      + intros Nr Ns. apply F. eapply (fold_none step apps related af ts _ _ _ h j true a r s x Hb Ha Hr Hs Hx); [exact E3|exact P|]. auto.
  Qed.
End Values.

(** ** Definedness *)

Lemma turns_total : forall step apps related af ts res starts hh items m, (forall act, In act (map fst items) -> exists pdf, dget String.eqb starts act = Some pdf) ->
  exists m', fold_result (activity_probs_turn step apps related af ts res starts hh) items m = Ok m'.
Proof.
  intros step apps related af ts res starts hh. induction items as [|[act prob] items IH]; intros m D; [cbn; eauto|]. cbn [fold_result]. unfold activity_probs_turn at 1.
  destruct (D act (or_introl eq_refl)) as [pdf ->]. cbn [bind]. apply IH. intros a I. apply D. right. exact I.
Qed.

Lemma probs_defined : forall step apps related af fo hh_types groups,
  (forall g, In g groups -> (exists ts, g_targets g = Ok ts) /\ forall act, In act (map fst (g_probs g)) -> exists pdf, dget String.eqb (g_starts g) act = Some pdf) ->
  exists m, sample_switch_on_probs step apps related (Some af) (Some fo) hh_types groups = Ok m.
Proof.
  intros step apps related af fo hh_types groups D. unfold sample_switch_on_probs.
  assert (D' : forall k g, In (k, g) (combine (seq 0 (length groups)) groups) -> (exists ts, g_targets g = Ok ts) /\ forall act, In act (map fst (g_probs g)) -> exists pdf, dget String.eqb (g_starts g) act = Some pdf).
  { intros k g I. apply D. apply at_seq_combine in I. destruct I as [_ I]. eapply at_in. exact I. }
  revert D'. generalize (combine (seq 0 (length groups)) groups) as gs. generalize (map (fun _ : nat => map (fun _ : app => Fin 0) apps) hh_types) as m. clear D.
  intros m gs. revert m. induction gs as [|[k g] gs IH]; intros m D; [cbn; eauto|]. cbn [fold_result]. unfold group_turn at 1. destruct (D k g (or_introl eq_refl)) as [[ts ->] Ds]. cbn [bind].
  match goal with |- context [fold_result (activity_probs_turn step apps related af ts ?res ?st ?hh) ?items ?mm] => destruct (turns_total step apps related af ts res st hh items mm Ds) as [m1 ->] end.
  cbn [bind]. apply IH. intros k' g' I. apply (D k' g'). right. exact I.
Qed.

(** ** The constructor *)

Lemma constructed_ok : forall n step apps related af fo hh_types groups own algo sw fu p1 p2 start wait acts st,
  constructed n step apps related af fo hh_types groups own algo sw fu p1 p2 start wait acts st ->
  wellformed n st af fo /\ p_related st = related /\ p_prev st = acts /\ p_seen st = Some (map (map (fun _ => false)) own) /\ s_own (p_base st) = own /\
  sample_switch_on_probs step apps related (Some af) (Some fo) hh_types groups = Ok (p_probs st) /\
  length (s_apps (p_base st)) = length apps /\
  (forall j a a0, at_ apps j a0 -> at_ (s_apps (p_base st)) j a -> a = set_variable a0 (ap_variable a)) /\
  make_appliances apps related own algo sw fu p1 p2 start wait = Ok (p_base st).
Proof.
  intros n step apps related af fo hh_types groups own algo sw fu p1 p2 start wait acts st (T & So & Lh & Ca & H). unfold make_prob in H.
  destruct (sample_switch_on_probs _ _ _ _ _ _ _) as [probs|] eqn:Ep; [|discriminate]. cbn [bind] in H.
  destruct (make_appliances _ _ _ _ _ _ _ _ _ _) as [s|] eqn:Em; [|discriminate]. cbn [bind] in H. injection H as <-. simpl.
  pose proof T as (L1 & L2 & L3 & _). destruct (parent_left apps related own algo sw fu p1 p2 start wait n L1 So s Em) as (Sim & _).
  destruct (make_ok _ apps related own algo sw fu p1 p2 wait n L1 So s Em) as (L & left & _ & _ & LA & Eo & _).
  pose proof (probs_shape step apps related af fo hh_types groups probs T Ep) as Sp. rewrite Lh in Sp.
  split. { unfold wellformed. simpl. rewrite LA. auto 10. }
  repeat (split; [first [reflexivity|assumption]|]). split; [|reflexivity].
  intros j a a0 Ea0 Ea. unfold make_appliances, make_with in Em. destruct (sample_real_load_profiles _ _ _ _ _ _ _ _) as [L'|]; [|discriminate]. cbn [bind] in Em.
  destruct (initial_left _ _ _) as [l'|]; [|discriminate]. cbn [bind] in Em. injection Em as <-. cbn [s_apps] in Ea. apply at_map2 in Ea.
  destruct Ea as (a1 & b & Ea1 & _ & ->). unfold at_ in *. replace a1 with a0 by congruence. reflexivity.
Qed.
