(** * Proofs about electric cars. *)

From Coq Require Import String List ZArith QArith Qround Bool Arith Lia Lqa.
From Verif Require Import Prelude PreludeFacts SpecBase SpecBaseFacts Parse_Model Parse_DurProofs Parse_GroupProofs Sampling_Model.
From Verif Require Import Appliance_Model Appliance_Spec Matrix_Proofs Appliance_Proofs Car_Model Car_Spec.
Import ListNotations.

Open Scope Q_scope.

(** ** Selecting one car per household *)

Lemma where_from_compress : forall A (mask : list bool) (l : list A) b k i, length mask = length l ->
  nth_error (where_from b mask) k = Some i ->
  exists p, i = (b + p)%nat /\ nth_error mask p = Some true /\ nth_error (compress mask l) k = nth_error l p.
Proof.
  intros A. induction mask as [|m mask IH]; intros [|x l] b k i Hl H; simpl in *; try lia; [destruct k; discriminate|].
  destruct m.
  - destruct k as [|k]; simpl in H.
    + injection H as <-. exists 0%nat. split; [lia|]. split; reflexivity.
    + destruct (IH l (S b) k i ltac:(lia) H) as (p & -> & H1 & H2). exists (S p). split; [lia|]. split; [exact H1|exact H2].
  - destruct (IH l (S b) k i ltac:(lia) H) as (p & -> & H1 & H2). exists (S p). split; [lia|]. split; [exact H1|exact H2].
Qed.

Lemma where_from_length : forall A (mask : list bool) (l : list A) b, length mask = length l ->
  length (where_from b mask) = length (compress mask l).
Proof.
  intros A. induction mask as [|m mask IH]; intros [|x l] b H; simpl in *; try lia. destruct m; simpl; rewrite (IH l) by lia; reflexivity.
Qed.

Lemma where_from_lower : forall mask b k i, nth_error (where_from b mask) k = Some i -> (b <= i)%nat.
Proof.
  induction mask as [|m mask IH]; intros b k i H; simpl in H; [destruct k; discriminate|].
  destruct m; [destruct k as [|k]; simpl in H; [injection H as <-; lia|]|]; apply IH in H; lia.
Qed.

Lemma where_from_incr : forall mask b k k' i i', nth_error (where_from b mask) k = Some i ->
  nth_error (where_from b mask) k' = Some i' -> (k < k')%nat -> (i < i')%nat.
Proof.
  induction mask as [|m mask IH]; intros b k k' i i' H H' Hk; simpl in *; [destruct k; discriminate|].
  destruct m.
  - destruct k' as [|k']; [lia|]. destruct k as [|k]; simpl in *.
    + injection H as <-. apply where_from_lower in H'. lia.
    + apply (IH _ _ _ _ _ H H'). lia.
  - apply (IH _ _ _ _ _ H H' Hk).
Qed.

Lemma index_in_min : forall (l : list nat) x k, nth_error l k = Some x -> (index_in Nat.compare x l <= k)%nat.
Proof.
  induction l as [|y l IH]; intros x [|k] H; simpl in *; try discriminate.
  - injection H as ->. assert (E : is_eq Nat.compare x x = true) by (apply (is_eq_iff nat_order); reflexivity). rewrite E. lia.
  - destruct (is_eq Nat.compare x y); [lia|]. apply IH in H. lia.
Qed.

Lemma existsb_eqb : forall i l, existsb (Nat.eqb i) l = true <-> In i l.
Proof.
  intros i l. rewrite existsb_exists. split.
  - intros (x & H & E). apply Nat.eqb_eq in E. congruence.
  - intro H. exists i. split; [exact H|apply Nat.eqb_refl].
Qed.

(** The result marks the first marked car of every household. *)
Lemma one_per_household_ok : forall hh mask, length mask = length hh -> exists out,
  one_per_household hh mask = Ok out /\ length out = length mask /\
  forall i b, at_ out i b -> (b = true <-> at_ mask i true /\
     forall h, at_ hh i h -> forall j, (j < i)%nat -> at_ hh j h -> at_ mask j false).
Proof.
  intros hh mask Hl. unfold one_per_household. set (sel := compress mask hh).
  assert (Hw : forall v, In v sel -> exists p, vget (where_true mask) (index_in Nat.compare v sel) = Ok p /\
     at_ mask p true /\ at_ hh p v /\ (forall j, (j < p)%nat -> at_ hh j v -> at_ mask j false)).
  { intros v Hv. pose proof (index_in_at nat_order sel v Hv) as E.
    assert (Hk : (index_in Nat.compare v sel < length (where_true mask))%nat).
    { unfold where_true. rewrite (where_from_length _ mask hh 0 Hl). apply nth_error_Some. fold sel. congruence. }
    destruct (lt_at _ _ _ Hk) as [p Hp]. exists p. split; [now apply vget_ok|].
    destruct (where_from_compress _ mask hh 0 _ _ Hl Hp) as (q & Eq & M & C). simpl in Eq. subst q. fold sel in C.
    rewrite E in C. split; [exact M|]. split; [now symmetry|].
    intros j Hj Hh. unfold at_ in *. destruct (nth_error mask j) as [b|] eqn:Ej.
    - destruct b; [|reflexivity]. exfalso.
      assert (Hin : In j (where_true mask)) by (now apply where_true_in). apply In_nth_error in Hin. destruct Hin as [k' Hk'].
      destruct (where_from_compress _ mask hh 0 _ _ Hl Hk') as (q & Eq & M' & C'). simpl in Eq. subst q. fold sel in C'. rewrite Hh in C'.
      apply index_in_min in C'. destruct (Nat.eq_dec (index_in Nat.compare v sel) k') as [E0|Hne].
      + unfold where_true in Hp, Hk'. rewrite E0 in Hp. rewrite Hp in Hk'. injection Hk'. lia.
      + assert (p < j)%nat; [|lia]. apply (where_from_incr mask 0 _ _ _ _ Hp Hk'). lia.
    - apply nth_error_None in Ej. assert (j < length hh)%nat by (apply nth_error_Some; congruence). lia. }
  destruct (mapM_total _ _ (vget (where_true mask)) (map (fun v => index_in Nat.compare v sel) (uniq Nat.compare sel))) as [chosen Ec].
  { intros x Hx. apply in_map_iff in Hx. destruct Hx as (v & <- & Hv). apply (proj1 (uniq_in nat_order _ _)) in Hv.
    destruct (Hw v Hv) as (p & Hp & _). eauto. }
  rewrite Ec. simpl. eexists. split; [reflexivity|]. split; [rewrite map_length, seq_length; reflexivity|].
  destruct (mapM_ok _ _ _ _ _ Ec) as [Lc Kc]. rewrite map_length in Lc.
  assert (Hch : forall i, In i chosen <-> exists v, In v sel /\ vget (where_true mask) (index_in Nat.compare v sel) = Ok i).
  { intro i. split.
    - intro Hi. apply in_at in Hi. destruct Hi as [m Hm]. pose proof (at_lt _ _ _ _ Hm).
      destruct (lt_at _ (uniq Nat.compare sel) m) as [v Hv]; [lia|].
      assert (Hx : nth_error (map (fun v => index_in Nat.compare v sel) (uniq Nat.compare sel)) m = Some (index_in Nat.compare v sel)).
      { rewrite nth_error_map. unfold at_ in Hv. rewrite Hv. reflexivity. }
      destruct (Kc _ _ Hx) as (y & Hy & Ey). exists v. split; [apply (proj1 (uniq_in nat_order sel v)); eapply at_in; eauto|].
      unfold at_ in Hm. rewrite Hm in Hy. injection Hy as ->. exact Ey.
    - intros (v & Hv & E). apply (proj2 (uniq_in nat_order sel v)) in Hv. apply in_at in Hv. destruct Hv as [m Hm].
      assert (Hx : nth_error (map (fun v => index_in Nat.compare v sel) (uniq Nat.compare sel)) m = Some (index_in Nat.compare v sel)).
      { rewrite nth_error_map. unfold at_ in Hm. rewrite Hm. reflexivity. }
      destruct (Kc _ _ Hx) as (y & Hy & Ey). rewrite E in Ey. injection Ey as ->. eapply nth_error_In; eauto. }
  intros i b Hb. apply at_map in Hb. destruct Hb as (i' & Hi & ->). apply at_seq in Hi. destruct Hi as [Hi ->]. simpl.
  rewrite existsb_eqb, Hch. split.
  - intros (v & Hv & E). destruct (Hw v Hv) as (p & Ep & M & Hh & Hmin). rewrite E in Ep. injection Ep as <-.
    split; [exact M|]. intros h Hh'. rewrite (at_fun _ _ _ _ _ Hh' Hh). exact Hmin.
  - intros [M Hmin]. destruct (lt_at _ hh i) as [v Hv]; [lia|]. exists v.
    assert (Hin : In i (where_true mask)) by (now apply where_true_in). apply In_nth_error in Hin. destruct Hin as [k Hk].
    destruct (where_from_compress _ mask hh 0 _ _ Hl Hk) as (q & Eq & M' & C). simpl in Eq. subst q. fold sel in C. unfold at_ in Hv. rewrite Hv in C.
    assert (Hs : In v sel) by (eapply nth_error_In; eauto). split; [exact Hs|].
    destruct (Hw v Hs) as (p & Ep & Mp & Hh & Hminp). rewrite Ep. f_equal.
    destruct (lt_eq_lt_dec p i) as [[Hlt| ->]|Hgt]; [|reflexivity|].
    + pose proof (Hmin v Hv p Hlt Hh) as X. unfold at_ in X, Mp. congruence.
    + pose proof (Hminp i Hgt Hv) as X. unfold at_ in X, M. congruence.
Qed.

(** ** Counting *)

Lemma count_compress : forall h (f : car -> bool) cars,
  count_nat h (compress (map f cars) (map c_hh cars)) = length (filter (fun c => Nat.eqb (c_hh c) h && f c) cars).
Proof.
  intros h f. induction cars as [|c cars IH]; [reflexivity|]. simpl. destruct (f c) eqn:E; simpl.
  - rewrite andb_true_r, (Nat.eqb_sym (c_hh c) h). destruct (Nat.eqb h (c_hh c)); simpl; rewrite IH; reflexivity.
  - rewrite andb_false_r. exact IH.
Qed.

Lemma hh_in_iff : forall mask h, hh_in mask h = true <-> at_ mask h true.
Proof. intros mask h. unfold hh_in. rewrite existsb_eqb. apply where_true_in. Qed.

(** ** Timers *)

Lemma until_timer_ok : forall timer t, until_timer timer t (steps_till_charged timer t).
Proof. intros timer t. unfold until_timer, steps_till_charged. destruct (Z.ltb_spec 0 (timer - t)); split; intro; lia. Qed.

Lemma until_timer_fun : forall timer t n, until_timer timer t n -> n = steps_till_charged timer t.
Proof.
  intros timer t n [H1 H2]. unfold steps_till_charged. destruct (Z.ltb_spec 0 (timer - t)); [rewrite H1 by lia|rewrite H2 by lia]; lia.
Qed.

(** ** Probability of leaving *)

Lemma py_index_prob : forall l (m : Z) p, (0 <= m)%Z -> bind (py_index (length l) m) (vget l) = Ok p -> prob_of l m p.
Proof.
  intros l m p Hm H. unfold py_index in H. destruct (Z.leb_spec 0 m); [|lia]. destruct (m <? _)%Z; simpl in H; [|discriminate].
  apply vget_ok in H. split; assumption.
Qed.

Lemma leave_prob_ok : forall o o' a a' w w' p, leave_prob o o' a a' w w' = Ok p ->
  forall u, 0 <= u -> (u < p <-> exists q, u < q /\ (o' < o)%Z /\
    (((a < a')%Z /\ prob_of share_leisure (o - o') q) \/ ((a' <= a)%Z /\ (w < w')%Z /\ prob_of share_work (o - o') q))).
Proof.
  intros o o' a a' w w' p H u Hu. unfold leave_prob in H.
  destruct (Z.ltb_spec o' o) as [Ho|Ho].
  2:{ rewrite !andb_false_r in H. cbn [bind] in H. injection H as <-. split; [lra|]. intros (q & _ & X & _). lia. }
  rewrite !andb_true_r in H.
  destruct (if (w <? w')%Z then _ else _) as [p1|] eqn:E1; [|discriminate]. cbn [bind] in H.
  destruct (Z.ltb_spec a a') as [Ha|Ha].
  - apply py_index_prob in H; [|lia]. split.
    + intro Hp. exists p. auto.
    + intros (q & Hq & _ & [[_ [_ P]]|[X _]]); [|lia]. destruct H as [_ P']. rewrite (at_fun _ _ _ _ _ P' P). exact Hq.
  - injection H as <-. destruct (Z.ltb_spec w w') as [Hw|Hw].
    + apply py_index_prob in E1; [|lia]. split.
      * intro Hp. exists p1. auto 10.
      * intros (q & Hq & _ & [[X _]|[_ [_ [_ P]]]]); [lia|]. destruct E1 as [_ P']. rewrite (at_fun _ _ _ _ _ P' P). exact Hq.
    + injection E1 as <-. split; [lra|]. intros (q & _ & _ & [[X _]|[_ [X _]]]); lia.
Qed.

(** ** One step *)

Lemma update_charging_fields : forall c, same_car c (update_charging c) /\ c_use (update_charging c) = c_use c /\
  c_used (update_charging c) = c_used c /\
  c_left (update_charging c) = (if c_chg c then c_left c - 1 else c_left c)%Z /\
  c_chg (update_charging c) = c_chg c && Z.leb 1 (if c_chg c then c_left c - 1 else c_left c).
Proof.
  intros [x1 x2 x3 x4 x5 x6 x7]. unfold update_charging, same_car. destruct x7; cbn.
  - destruct (Z.ltb_spec (Z.pred x5) 1); cbn [c_chg c_use c_used c_left c_hh c_cons c_timer set_left set_chg andb];
      repeat (split; [repeat split; try reflexivity; lia|]); symmetry; [apply Z.leb_gt|apply Z.leb_le]; lia.
  - destruct (Z.ltb_spec x5 1); cbn; repeat split.
Qed.


Definition tick_used (c : car) : car := if c_use c then set_used c (Z.succ (c_used c)) else c.

(** What a step makes of one car that arrives ([a]) or leaves ([l]), with [t]
    charging steps added, started by its timer or not ([b]). *)
Definition moved (a l b : bool) (t : Z) (c : car) : car :=
  let left := if a then (c_left c + t)%Z else c_left c in
  let used := if a then 0%Z else if c_use c then Z.succ (c_used c) else c_used c in
  update_charging (Car (c_hh c) (c_cons c) (c_timer c) (l || (c_use c && negb a)) left used (negb l && (b || c_chg c))).

Lemma tick_same : forall c, same_car c (tick_used c) /\ c_use (tick_used c) = c_use c /\ c_chg (tick_used c) = c_chg c /\ c_left (tick_used c) = c_left c.
Proof. intro c. unfold tick_used. destruct (c_use c) eqn:E; simpl; repeat split; auto. Qed.

Lemma at_combine : forall A B (l : list A) (m : list B) k x y, at_ l k x -> at_ m k y -> at_ (combine l m) k (x, y).
Proof. intros A B l m k x y H1 H2. unfold at_ in *. rewrite combine_nth_error, H1, H2. reflexivity. Qed.

Lemma energy_steps : forall c p t, time_to_charge c p = Ok t -> charge_steps (c_cons c) (c_used c) p t.
Proof.
  intros c p t H. unfold time_to_charge in H. destruct (Qeq_bool p 0) eqn:E; [discriminate|]. apply Qeq_bool_neq in E.
  injection H as <-. split; [exact E|]. exists (trip_energy c). split; [unfold trip_energy; field|].
  assert (X : trip_energy c * 3600000 / p / 600 == trip_energy c * 3600000 / p / 10 / 60) by (field; exact E).
  rewrite (trunc_comp _ _ (Qeq_sym _ _ X)). apply trunc_int_part.
Qed.

Lemma mapM_at : forall A B (f : A -> result B) l out k x, mapM f l = Ok out -> at_ l k x -> exists y, at_ out k y /\ f x = Ok y.
Proof. intros A B f l out k x H Hx. destruct (mapM_ok _ _ _ _ _ H) as [_ K]. exact (K k x Hx). Qed.

Section Step.
  Variables (n : nat) (s : csim) (i : cin) (s' : csim).
  Hypothesis Hf : fleet n s.
  Hypothesis Hu : uniform n i.
  Hypothesis Hdo : car_do s i = Ok s'.

  Lemma car_step_full :
    length (k_cars s') = length (k_cars s) /\ k_station s' = k_station s /\ k_strategy s' = k_strategy s /\
    k_time s' = S (k_time s) /\ k_occ s' = i_occ i /\ k_hoh s' = i_hoh i /\ k_hwh s' = i_hwh i /\
    length (i_occ i) = n /\ length (i_hoh i) = n /\ length (i_hwh i) = n /\
    forall k c, at_ (k_cars s) k c -> exists a l b t st p,
      at_ (k_cars s') k (moved a l b t c) /\
      (a = true <-> arrives s i k c) /\ (l = true <-> leaves s i k c) /\
      at_ (k_station s) (c_hh c) p /\ (a = true -> charge_steps (c_cons c) (c_used c + 1) p t) /\
      (exists sl, k_strategy s = Some sl /\ at_ sl (c_hh c) st) /\
      (b = true <-> (a = true /\ st = 0%nat) \/
         (st = 1%nat /\ (c_use c = false \/ a = true) /\
          (if a then (c_left c + t)%Z else c_left c) = steps_till_charged (c_timer c) (Z.of_nat (S (k_time s) mod 144)))).
  Proof.
    destruct Hf as (F1 & F2 & F3 & F4 & F5 & F6). destruct Hu as (U1 & U2 & U3 & U4).
    pose proof Hdo as H. unfold car_do, car_step in H. rewrite F1 in H.
    destruct (has_len (i_occ i) n && has_len (i_hoh i) n && has_len (i_hwh i) n) eqn:El; cbn [negb] in H; [|discriminate].
    apply andb_true_iff in El. destruct El as [El E3]. apply andb_true_iff in El. destruct El as [E1 E2].
    unfold has_len in *. apply Nat.eqb_eq in E1. apply Nat.eqb_eq in E2. apply Nat.eqb_eq in E3.
    change (map _ (k_cars s)) with (map tick_used (k_cars s)) in H.
    set (cars1 := map tick_used (k_cars s)) in *. set (hh := map c_hh cars1) in *.
    assert (Hhh : hh = map c_hh (k_cars s)).
    { unfold hh, cars1. rewrite map_map. apply map_ext. intro c. exact (proj1 (proj1 (tick_same c))). }
    assert (Huse : map c_use cars1 = map c_use (k_cars s)).
    { unfold cars1. rewrite map_map. apply map_ext. intro c. exact (proj1 (proj2 (tick_same c))). }
    rewrite Huse in H. set (n_use := bincount _ n) in H.
    assert (Huses : forall h x, at_ n_use h x -> x = cars_of s h c_use).
    { intros h x Hx. apply bincount_nth in Hx. rewrite Hhh in Hx. rewrite count_compress in Hx. exact Hx. }
    assert (Hlen_use : length n_use = n).
    { unfold n_use. apply bincount_length. intros x Hx.
      assert (Hx' : In x hh).
      { clear -Hx. assert (G : forall m (l : list nat) x, In x (compress m l) -> In x l).
        { induction m as [|b m IH]; intros [|y l] z Hz; simpl in *; try tauto. destruct b; simpl in Hz; [destruct Hz; auto|auto]. }
        eapply G. exact Hx. }
      rewrite Hhh in Hx'. apply in_map_iff in Hx'. destruct Hx' as (c & <- & Hc). apply in_at in Hc. destruct Hc as [k Hc]. eauto. }
    destruct (mc_from_1d_pdf [1 # 10; 9 # 10] (i_arr i)) as [r|] eqn:Er; cbn [bind] in H; [|discriminate].
    assert (Hr : forall h u x, at_ (i_arr i) h u -> at_ r h x -> (Nat.eqb x 1 = true <-> 1 # 10 <= u)).
    { intros h u x Hh Hx. unfold mc_from_1d_pdf, mc_from_1d_cdf in Er. cbn [cumsum cumsum_from] in Er.
      destruct (mapM_at _ _ _ _ _ _ _ Er Hh) as (y & Hy & Ey). rewrite (at_fun _ _ _ _ _ Hx Hy). clear x Hx Hy.
      specialize (U3 h u Hh). unfold mc_one in Ey. cbn [map] in Ey. destruct (Qltb u (0 + (1 # 10))) eqn:L1.
      - apply Qltb_lt in L1. unfold argmax_bool in Ey. simpl in Ey. injection Ey as <-. simpl. split; [discriminate|lra].
      - apply Qltb_ge in L1. assert (L2 : Qltb u (0 + (1 # 10) + (9 # 10)) = true) by (apply Qltb_lt; lra).
        rewrite L2 in Ey. unfold argmax_bool in Ey. simpl in Ey. injection Ey as <-. simpl. split; [lra|reflexivity]. }
    assert (Lr : length r = n).
    { unfold mc_from_1d_pdf, mc_from_1d_cdf in Er. cbn [cumsum cumsum_from] in Er. destruct (mapM_ok _ _ _ _ _ Er) as [L _]. lia. }
    set (arrivals := map2 andb _ _) in H.
    assert (Harr : forall h, (h < n)%nat -> (0 < cars_of s h c_use)%nat ->
       (hh_in arrivals h = true <-> people_return s i h \/ car_left_over s i h)).
    { intros h Hh Hpos. rewrite hh_in_iff. unfold arrivals.
      destruct (lt_at _ (k_occ s) h) as [o Ho]; [lia|]. destruct (lt_at _ (i_occ i) h) as [o' Ho']; [lia|].
      destruct (lt_at _ r h) as [x Hx]; [lia|]. destruct (lt_at _ (i_arr i) h) as [u Hua]; [lia|].
      destruct (lt_at _ (i_hoh i) h) as [a Ha]; [lia|]. destruct (lt_at _ (i_hwh i) h) as [w Hw]; [lia|].
      destruct (lt_at _ n_use h) as [m Hm]; [lia|]. pose proof (Huses h m Hm) as Em. pose proof (Hr h u x Hua Hx) as Hrx.
      rewrite at_map2. split.
      - intros (x1 & x2 & X1 & X2 & X3). symmetry in X3. apply andb_true_iff in X3. destruct X3 as [-> ->].
        apply at_map2 in X1. destruct X1 as (y1 & y2 & Y1 & Y2 & Y3). symmetry in Y3. apply orb_true_iff in Y3. destruct Y3 as [->| ->].
        + left. apply at_map2 in Y1. destruct Y1 as (z1 & z2 & Z1 & Z2 & Z3). symmetry in Z3. apply andb_true_iff in Z3. destruct Z3 as [-> Z3].
          rewrite (at_fun _ _ _ _ _ Z2 Hx) in Z3. apply Hrx in Z3. apply at_map2 in Z1. destruct Z1 as (o1 & o2 & O1 & O2 & O3).
          exists o, o', u. rewrite (at_fun _ _ _ _ _ O1 Ho), (at_fun _ _ _ _ _ O2 Ho') in O3. symmetry in O3. apply Z.ltb_lt in O3. auto.
        + right. apply at_map2 in Y2. destruct Y2 as (z1 & z2 & Z1 & Z2 & Z3). rewrite (at_fun _ _ _ _ _ Z2 Hm) in Z3.
          apply at_map2 in Z1. destruct Z1 as (a1 & w1 & A1 & W1 & ->). rewrite (at_fun _ _ _ _ _ A1 Ha), (at_fun _ _ _ _ _ W1 Hw) in Z3.
          symmetry in Z3. apply Z.ltb_lt in Z3. exists a, w. rewrite <- Em. auto.
      - intro D.
        assert (S2 : at_ (map (fun k => Nat.ltb 0 k) n_use) h true).
        { apply at_map. exists m. split; [exact Hm|]. symmetry. apply Nat.ltb_lt. lia. }
        assert (P1 : at_ (map2 (fun (m : bool) k => m && Nat.eqb k 1) (map2 (fun (o o' : Z) => Z.ltb o o') (k_occ s) (i_occ i)) r) h
                       (Z.ltb o o' && Nat.eqb x 1)).
        { apply at_map2. exists (Z.ltb o o'), x. split; [apply at_map2; exists o, o'; auto|]. auto. }
        assert (P2 : at_ (map2 (fun x k => Z.ltb x (Z.of_nat k)) (map2 Z.add (i_hoh i) (i_hwh i)) n_use) h (Z.ltb (a + w) (Z.of_nat m))).
        { apply at_map2. exists (a + w)%Z, m. split; [apply at_map2; exists a, w; auto|]. auto. }
        exists true, true. split; [|split; [exact S2|reflexivity]]. apply at_map2. eexists. eexists. split; [exact P1|]. split; [exact P2|].
        symmetry. apply orb_true_iff. destruct D as [(o1 & o2 & u1 & D1 & D2 & D3 & D4 & D5)|(a1 & w1 & D1 & D2 & D3)].
        + left. rewrite (at_fun _ _ _ _ _ D1 Ho), (at_fun _ _ _ _ _ D2 Ho') in D4. rewrite (at_fun _ _ _ _ _ D3 Hua) in D5.
          apply andb_true_iff. split; [now apply Z.ltb_lt|]. now apply Hrx.
        + right. rewrite (at_fun _ _ _ _ _ D1 Ha), (at_fun _ _ _ _ _ D2 Hw), <- Em in D3. now apply Z.ltb_lt. }
    (* arrivals *)
    set (cand := map (fun c => hh_in arrivals (c_hh c) && c_use c) cars1) in H.
    assert (Lcand : length cand = length hh) by (unfold cand, hh; rewrite !map_length; reflexivity).
    destruct (one_per_household_ok hh cand Lcand) as (arr0 & Ea & La & Ka). rewrite Ea in H. cbn [bind] in H.
    set (ignored := Nat.eqb (S (k_time s) mod 144) STEP_IGNORE_TRANSITIONS) in H.
    assert (Hig : ignored = true <-> quiet_step s) by (unfold ignored, quiet_step, STEP_IGNORE_TRANSITIONS; apply Nat.eqb_eq).
    set (arriving := map (fun b => b && negb ignored) arr0) in H.
    assert (Hcar1 : forall k c, at_ (k_cars s) k c -> at_ cars1 k (tick_used c)). { intros k c Hk. apply at_map. eauto. }
    assert (Hhhk : forall k c, at_ (k_cars s) k c -> at_ hh k (c_hh c)). { intros k c Hk. rewrite Hhh. apply at_map. eauto. }
    assert (Hcandk : forall k c, at_ (k_cars s) k c -> at_ cand k (hh_in arrivals (c_hh c) && c_use c)).
    { intros k c Hk. apply at_map. exists (tick_used c). split; [auto|]. destruct (tick_same c) as ((-> & _) & -> & _). reflexivity. }
    assert (Hk_of : forall k h, at_ hh k h -> exists c, at_ (k_cars s) k c /\ c_hh c = h).
    { intros k h Hk. rewrite Hhh in Hk. apply at_map in Hk. destruct Hk as (c & Hc & ->). eauto. }
    assert (Hpos : forall k c, at_ (k_cars s) k c -> c_use c = true -> (0 < cars_of s (c_hh c) c_use)%nat).
    { intros k c Hk Hc. unfold cars_of. apply at_in in Hk. destruct (filter _ (k_cars s)) eqn:Ef; [|simpl; lia]. exfalso.
      assert (In c (filter (fun c0 => Nat.eqb (c_hh c0) (c_hh c) && c_use c0) (k_cars s))).
      { apply filter_In. split; [exact Hk|]. rewrite Nat.eqb_refl. exact Hc. }
      rewrite Ef in H0. destruct H0. }
    assert (Harrk : forall k c, at_ (k_cars s) k c -> exists a, at_ arriving k a /\ (a = true <-> arrives s i k c)).
    { intros k c Hk. destruct (lt_at _ arr0 k) as [b Hb]. { rewrite La, Lcand, Hhh, map_length. eapply at_lt; eauto. }
      exists (b && negb ignored). split; [apply at_map; eauto|]. pose proof (Ka k b Hb) as Kb. rewrite andb_true_iff, Kb, negb_true_iff.
      unfold arrives. rewrite <- Hig. split.
      - intros [[M1 M2] M3]. split; [congruence|]. pose proof (at_fun _ _ _ _ _ M1 (Hcandk k c Hk)) as E. symmetry in E. apply andb_true_iff in E.
        destruct E as [X1 X2]. split; [exact X2|]. apply Harr in X1; [|eauto|eauto]. split; [exact X1|].
        intros k' c' Hlt Hk' Hh. specialize (M2 (c_hh c) (Hhhk k c Hk) k' Hlt). rewrite <- Hh in M2. specialize (M2 (Hhhk k' c' Hk')).
        pose proof (at_fun _ _ _ _ _ M2 (Hcandk k' c' Hk')) as E. symmetry in E. rewrite Hh in E. apply andb_false_iff in E.
        destruct E as [E|E]; [|exact E]. apply (Harr (c_hh c)) in X1; [congruence| |]; eauto.
      - intros (Q1 & Q2 & Q3 & Q4). assert (X1 : hh_in arrivals (c_hh c) = true) by (apply Harr; eauto).
        split; [|destruct ignored; congruence]. split.
        + pose proof (Hcandk k c Hk) as E. rewrite X1, Q2 in E. exact E.
        + intros h Hh k' Hlt Hk'. rewrite (at_fun _ _ _ _ _ Hh (Hhhk k c Hk)) in Hk'. destruct (Hk_of k' _ Hk') as (c' & Hc' & Eh).
          pose proof (Hcandk k' c' Hc') as E. rewrite (Q4 k' c' Hlt Hc' Eh), andb_false_r in E. exact E. }
    match type of H with bind (mapM ?f ?l) _ = _ => destruct (mapM f l) as [cars2|] eqn:M2 end; cbn [bind] in H; [|discriminate].
    destruct (k_strategy s) as [sl|] eqn:Es; cbn [strategy_array bind] in H; [|discriminate].
    match type of H with bind (mapM ?f ?l) _ = _ => destruct (mapM f l) as [cars3|] eqn:M3 end; cbn [bind] in H; [|discriminate].
    match type of H with bind (mapM ?f ?l) _ = _ => destruct (mapM f l) as [probs|] eqn:M4 end; cbn [bind] in H; [|discriminate].
    assert (Lcars1 : length cars1 = length (k_cars s)) by apply map_length.
    assert (Larr : length arriving = length (k_cars s)).
    { unfold arriving. rewrite map_length, La, Lcand, Hhh, map_length. reflexivity. }
    assert (Lc2 : length cars2 = length (k_cars s)).
    { destruct (mapM_ok _ _ _ _ _ M2) as [L _]. rewrite combine_length in L. lia. }
    assert (Lc3 : length cars3 = length (k_cars s)).
    { destruct (mapM_ok _ _ _ _ _ M3) as [L _]. rewrite combine_length in L. lia. }
    (* cars3 of one car *)
    assert (Hc3 : forall k c, at_ (k_cars s) k c -> exists a b t st p c3,
       at_ cars3 k c3 /\ at_ arriving k a /\ (a = true <-> arrives s i k c) /\
       at_ (k_station s) (c_hh c) p /\ (a = true -> charge_steps (c_cons c) (c_used c + 1) p t) /\
       (exists sl', Some sl = Some sl' /\ at_ sl' (c_hh c) st) /\
       (b = true <-> (a = true /\ st = 0%nat) \/
         (st = 1%nat /\ (c_use c = false \/ a = true) /\
          (if a then (c_left c + t)%Z else c_left c) = steps_till_charged (c_timer c) (Z.of_nat (S (k_time s) mod 144)))) /\
       c3 = Car (c_hh c) (c_cons c) (c_timer c) (c_use c && negb a) (if a then (c_left c + t)%Z else c_left c)
              (if a then 0%Z else if c_use c then Z.succ (c_used c) else c_used c) (b || c_chg c)).
    { intros k c Hk. destruct (Harrk k c Hk) as (a & Ha & Haa).
      destruct (mapM_at _ _ _ _ _ _ _ M2 (at_combine _ _ _ _ _ _ _ Ha (Hcar1 k c Hk))) as (c2 & Hc2 & Ec2). cbn [fst snd] in Ec2.
      destruct (mapM_at _ _ _ _ _ _ _ M3 (at_combine _ _ _ _ _ _ _ Ha Hc2)) as (c3 & Hc3 & Ec3). cbn [fst snd] in Ec3.
      destruct (tick_same c) as ((T1 & T2 & T3) & T4 & T5 & T6).
      destruct (lt_at _ (k_station s) (c_hh c)) as [p Hp]. { rewrite F1. eauto. }
      assert (C2 : exists t, (a = true -> charge_steps (c_cons c) (c_used c + 1) p t) /\
        c2 = Car (c_hh c) (c_cons c) (c_timer c) (c_use c && negb a) (if a then (c_left c + t)%Z else c_left c)
              (if a then 0%Z else if c_use c then Z.succ (c_used c) else c_used c) (c_chg c)).
      { unfold arrive in Ec2. destruct a.
        - rewrite T1 in Ec2. apply vget_ok in Hp. rewrite Hp in Ec2. cbn [bind] in Ec2.
          destruct (time_to_charge (tick_used c) p) as [t|] eqn:Et; cbn [bind] in Ec2; [|discriminate]. injection Ec2 as <-.
          exists t. split.
          + intros _. apply energy_steps in Et. rewrite T2 in Et.
            assert (Eu : c_use c = true) by (apply Haa; reflexivity). unfold tick_used in Et. rewrite Eu in Et. cbn [set_used c_used] in Et.
            replace (c_used c + 1)%Z with (Z.succ (c_used c)) by lia. exact Et.
          + unfold set_used, set_left, set_use. cbn. rewrite T1, T2, T3, T5, T6, andb_false_r. reflexivity.
        - injection Ec2 as <-. exists 0%Z. split; [discriminate|]. unfold tick_used. rewrite andb_true_r.
          destruct c as [x1 x2 x3 [|] x5 x6 x7]; reflexivity. }
      destruct C2 as (t & Ht & ->). unfold start_charging in Ec3.
      cbn [c_hh] in Ec3. destruct (vget sl (c_hh c)) as [st|] eqn:Ev; cbn [bind] in Ec3; [|discriminate]. apply vget_ok in Ev.
      injection Ec3 as <-. unfold set_chg in Hc3. cbn [c_hh c_cons c_timer c_use c_left c_used c_chg] in Hc3.
      set (L := if a then (c_left c + t)%Z else c_left c) in *.
      exists a, ((L =? steps_till_charged (c_timer c) (Z.of_nat (S (k_time s) mod 144)))%Z && Nat.eqb st 1 && negb (c_use c && negb a)
                 || (a && Nat.eqb st 0)), t, st, p.
      eexists. split; [exact Hc3|]. split; [exact Ha|]. split; [exact Haa|]. split; [exact Hp|]. split; [exact Ht|]. split; [eauto|].
      split.
      - rewrite orb_true_iff, !andb_true_iff, Z.eqb_eq, !Nat.eqb_eq, negb_true_iff, andb_false_iff, negb_false_iff. clear. tauto.
      - rewrite orb_assoc. reflexivity. }
    (* departures *)
    set (lv := map2 (fun p u => Qltb u p) probs (i_dep i)) in H.
    assert (Hlv : forall h, (h < n)%nat -> (hh_in lv h = true <-> departs s i h)).
    { intros h Hh. rewrite hh_in_iff. unfold lv. rewrite at_map2.
      destruct (lt_at _ (k_occ s) h) as [o Ho]; [lia|]. destruct (lt_at _ (i_occ i) h) as [o' Ho']; [lia|].
      destruct (lt_at _ (k_hoh s) h) as [a Ha]; [lia|]. destruct (lt_at _ (i_hoh i) h) as [a' Ha']; [lia|].
      destruct (lt_at _ (k_hwh s) h) as [w Hw]; [lia|]. destruct (lt_at _ (i_hwh i) h) as [w' Hw']; [lia|].
      destruct (lt_at _ (i_dep i) h) as [u Hud]; [lia|]. pose proof (U4 h u Hud) as [Hu0 _].
      destruct (mapM_at _ _ _ _ _ _ _ M4 (at_combine _ _ _ _ _ _ _ (at_combine _ _ _ _ _ _ _ Ho Ho')
                 (at_combine _ _ _ _ _ _ _ (at_combine _ _ _ _ _ _ _ Ha Ha') (at_combine _ _ _ _ _ _ _ Hw Hw')))) as (p & Hp & Ep).
      pose proof (leave_prob_ok _ _ _ _ _ _ _ Ep u Hu0) as LP. split.
      - intros (p1 & u1 & P1 & P2 & P3). symmetry in P3. apply Qltb_lt in P3. rewrite (at_fun _ _ _ _ _ P1 Hp), (at_fun _ _ _ _ _ P2 Hud) in P3.
        apply LP in P3. destruct P3 as (q & Q1 & Q2 & Q3). exists o, o', a, a', w, w', u, q. auto 12.
      - intros (o1 & o1' & a1 & a1' & w1 & w1' & u1 & q & D1 & D2 & D3 & D4 & D5 & D6 & D7 & D8 & D9 & D10).
        exists p, u. split; [exact Hp|]. split; [exact Hud|]. symmetry. apply Qltb_lt. apply LP. exists q.
        rewrite (at_fun _ _ _ _ _ D1 Ho), (at_fun _ _ _ _ _ D2 Ho') in *. rewrite (at_fun _ _ _ _ _ D3 Ha), (at_fun _ _ _ _ _ D4 Ha') in *.
        rewrite (at_fun _ _ _ _ _ D5 Hw), (at_fun _ _ _ _ _ D6 Hw') in *. rewrite (at_fun _ _ _ _ _ D7 Hud) in *. auto. }
    set (cand2 := map (fun c => hh_in lv (c_hh c) && negb (c_use c)) cars3) in H.
    assert (Lcand2 : length cand2 = length hh) by (unfold cand2; rewrite Hhh, !map_length; lia).
    destruct (one_per_household_ok hh cand2 Lcand2) as (lv0 & El0 & Ll & Kl). rewrite El0 in H. cbn [bind] in H.
    set (leaving := map (fun b => b && negb ignored) lv0) in H. injection H as <-.
    assert (Hcand2 : forall k c, at_ (k_cars s) k c -> exists b, at_ cand2 k b /\ (b = true <-> departs s i (c_hh c) /\ home s i k c)).
    { intros k c Hk. destruct (Hc3 k c Hk) as (a & b & t & st & p & c3 & X1 & X2 & X3 & _ & _ & _ & _ & ->).
      eexists. split; [apply at_map; eexists; split; [exact X1|reflexivity]|]. cbn [c_hh c_use].
      rewrite andb_true_iff, (Hlv (c_hh c)) by eauto. unfold home. rewrite <- X3, negb_true_iff, andb_false_iff, negb_false_iff. tauto. }
    assert (Hleav : forall k c, at_ (k_cars s) k c -> exists b, at_ leaving k b /\ (b = true <-> leaves s i k c)).
    { intros k c Hk. destruct (lt_at _ lv0 k) as [b Hb]. { rewrite Ll, Lcand2, Hhh, map_length. eapply at_lt; eauto. }
      exists (b && negb ignored). split; [apply at_map; eauto|]. pose proof (Kl k b Hb) as Kb. rewrite andb_true_iff, Kb, negb_true_iff.
      destruct (Hcand2 k c Hk) as (b2 & Hb2 & Eb2). unfold leaves. rewrite <- Hig. split.
      - intros [[N1 N2] N3]. split; [congruence|]. rewrite (at_fun _ _ _ _ _ Hb2 N1) in Eb2. destruct (proj1 Eb2 eq_refl) as [D1 D2].
        split; [exact D2|]. split; [exact D1|]. intros k' c' Hlt Hk' Hh Hhome. destruct (Hcand2 k' c' Hk') as (b3 & Hb3 & Eb3).
        specialize (N2 (c_hh c) (Hhhk k c Hk) k' Hlt). rewrite <- Hh in N2. specialize (N2 (Hhhk k' c' Hk')).
        rewrite (at_fun _ _ _ _ _ Hb3 N2) in Eb3. assert (false = true) by (apply Eb3; rewrite Hh; auto). discriminate.
      - intros (Q1 & Q2 & Q3 & Q4). split; [|destruct ignored; congruence]. split.
        + assert (b2 = true) by (apply Eb2; auto). congruence.
        + intros h Hh k' Hlt Hk'. rewrite (at_fun _ _ _ _ _ Hh (Hhhk k c Hk)) in Hk'. destruct (Hk_of k' _ Hk') as (c' & Hc' & Eh).
          destruct (Hcand2 k' c' Hc') as (b3 & Hb3 & Eb3). destruct b3; [|exact Hb3]. exfalso. apply (Q4 k' c' Hlt Hc' Eh). apply Eb3. reflexivity. }
    assert (Lleav : length leaving = length (k_cars s)).
    { unfold leaving. rewrite map_length, Ll, Lcand2, Hhh, map_length. reflexivity. }
    split. { simpl. rewrite map_length, map2_length. lia. }
    do 6 (split; [reflexivity|]). split; [exact E1|]. split; [exact E2|]. split; [exact E3|].
    intros k c Hk. destruct (Hc3 k c Hk) as (a & b & t & st & p & c3 & X1 & X2 & X3 & X4 & X5 & X6 & X7 & ->).
    destruct (Hleav k c Hk) as (l & Hl & Hll). exists a, l, b, t, st, p.
    split; [|tauto]. simpl. apply at_map. eexists. split; [apply at_map2; exists l; eexists; split; [exact Hl|]; split; [exact X1|reflexivity]|].
    unfold moved. destruct l; cbn; [|rewrite ?orb_false_l; reflexivity]. reflexivity.
  Qed.
End Step.

(** ** Consequences *)

Lemma fleet_step : forall n s i s', fleet n s -> uniform n i -> car_do s i = Ok s' -> fleet n s'.
Proof.
  intros n s i s' Hf Hu H. destruct (car_step_full n s i s' Hf Hu H) as (L & S1 & S2 & S3 & S4 & S5 & S6 & L1 & L2 & L3 & A).
  pose proof Hf as (F1 & F2 & F3 & F4 & F5 & F6). unfold fleet. rewrite S1, S2, S4, S5, S6.
  split; [exact F1|]. split; [exact L1|]. split; [exact L2|]. split; [exact L3|]. split; [|exact F6].
  intros k c' Hc'. destruct (lt_at _ (k_cars s) k) as [c Hc]. { apply at_lt in Hc'. lia. }
  destruct (A k c Hc) as (a & l & b & t & st & p & X & _). rewrite (at_fun _ _ _ _ _ Hc' X).
  unfold moved. destruct (update_charging_fields (Car (c_hh c) (c_cons c) (c_timer c) (l || c_use c && negb a)
    (if a then (c_left c + t)%Z else c_left c) (if a then 0%Z else if c_use c then Z.succ (c_used c) else c_used c) (negb l && (b || c_chg c)))) as ((-> & _) & _).
  simpl. eauto.
Qed.

(** Fields of a car after a step. *)
Lemma moved_fields : forall a l b t c, same_car c (moved a l b t c) /\
  c_use (moved a l b t c) = (l || (c_use c && negb a)) /\
  c_used (moved a l b t c) = (if a then 0 else if c_use c then c_used c + 1 else c_used c)%Z /\
  c_left (moved a l b t c) = ((if a then c_left c + t else c_left c) - (if negb l && (b || c_chg c) then 1 else 0))%Z /\
  c_chg (moved a l b t c) = negb l && (b || c_chg c) && Z.leb 1 (c_left (moved a l b t c)).
Proof.
  intros a l b t c. unfold moved. set (c0 := Car _ _ _ _ _ _ _).
  destruct (update_charging_fields c0) as ((U1 & U2 & U3) & U4 & U5 & U6 & U7).
  split; [unfold same_car; rewrite U1, U2, U3; repeat split|]. split; [exact U4|].
  split; [rewrite U5; unfold c0; cbn; destruct a, (c_use c); lia|].
  split; [rewrite U6; unfold c0; cbn [c_chg c_left]; destruct (negb l && (b || c_chg c)); lia|].
  rewrite U7, U6. unfold c0. cbn [c_chg c_left]. reflexivity.
Qed.

Lemma car_step_back : forall n s i s' k c', fleet n s -> uniform n i -> car_do s i = Ok s' -> at_ (k_cars s') k c' ->
  exists c, at_ (k_cars s) k c.
Proof.
  intros n s i s' k c' Hf Hu H Hc. destruct (car_step_full n s i s' Hf Hu H) as (L & _). apply lt_at. apply at_lt in Hc. lia.
Qed.

Definition safe (s : csim) : Prop := forall k c, at_ (k_cars s) k c ->
  (c_use c = true -> c_chg c = false) /\ (c_chg c = true -> (1 <= c_left c)%Z).

Lemma safe_step : forall n s i s', fleet n s -> uniform n i -> safe s -> car_do s i = Ok s' -> safe s'.
Proof.
  intros n s i s' Hf Hu Hs H k c' Hc'. destruct (car_step_back _ _ _ _ _ _ Hf Hu H Hc') as [c Hc].
  destruct (car_step_full n s i s' Hf Hu H) as (_ & _ & _ & _ & _ & _ & _ & _ & _ & _ & A).
  destruct (A k c Hc) as (a & l & b & t & st & p & X & Xa & Xl & Xp & Xt & Xs & Xb). rewrite (at_fun _ _ _ _ _ Hc' X).
  destruct (moved_fields a l b t c) as (_ & M1 & _ & M2 & M3). destruct (Hs k c Hc) as [S1 S2]. rewrite M1, M3. split.
  - intro Hu'. destruct l; [reflexivity|]. cbn [orb negb andb] in *. apply andb_true_iff in Hu'. destruct Hu' as [Hu1 Hu2].
    apply negb_true_iff in Hu2. rewrite (S1 Hu1), orb_false_r. destruct b; [|reflexivity]. exfalso.
    destruct (proj1 Xb eq_refl) as [[Y _]|(_ & [Y|Y] & _)]; congruence.
  - intro Hchg. apply andb_true_iff in Hchg. destruct Hchg as [_ Hchg]. now apply Z.leb_le.
Qed.

Lemma run_inv : forall n l s s', fleet n s -> (forall i, In i l -> uniform n i) -> safe s -> car_run s l = Ok s' -> fleet n s' /\ safe s'.
Proof.
  intros n. induction l as [|i l IH]; intros s s' Hf Hu Hs H; simpl in H; [injection H as <-; auto|].
  destruct (car_do s i) as [s1|] eqn:E; simpl in H; [|discriminate]. pose proof (Hu i (or_introl eq_refl)) as Hi.
  apply (IH s1 s'); [eapply fleet_step; eauto|intros; apply Hu; right; assumption|eapply safe_step; eauto|exact H].
Qed.

Lemma new_safe : forall cars station strategy occ hoh hwh, safe (new_csim cars station strategy occ hoh hwh).
Proof.
  intros cars station strategy occ hoh hwh k c Hc. simpl in Hc. apply at_map in Hc. destruct Hc as (x & _ & ->). simpl. split; discriminate.
Qed.

Lemma consumption_car : forall n s h, fleet n s -> (h < n)%nat -> exists p v, at_ (k_station s) h p /\ at_ (car_consumption s) h v /\
  v == inject_Z (Z.of_nat (cars_of s h c_chg)) * p.
Proof.
  intros n s h (F1 & _) Hh. destruct (lt_at _ (k_station s) h) as [p Hp]; [lia|].
  exists p, (inject_Z (Z.of_nat (cars_of s h c_chg)) * p). split; [exact Hp|]. split; [|reflexivity].
  unfold car_consumption. apply at_map2. exists (cars_of s h c_chg), p. split; [|auto]. unfold n_charging. apply at_map. exists h.
  split; [apply at_seq; lia|]. rewrite count_compress. reflexivity.
Qed.

Lemma used_cars : forall n s h, fleet n s -> (h < n)%nat -> at_ (n_used_cars s) h (cars_of s h c_use).
Proof.
  intros n s h (F1 & _) Hh. unfold n_used_cars. apply at_map. exists h. split; [apply at_seq; lia|]. rewrite count_compress. reflexivity.
Qed.

(** ** Charging at home *)

Lemma stay_home : forall n l s s' k c, fleet n s -> (forall i, In i l -> uniform n i) -> car_run s l = Ok s' ->
  at_ (k_cars s) k c -> c_use c = false -> (forall sl, k_strategy s = Some sl -> at_ sl (c_hh c) 0%nat) ->
  (c_chg c = true <-> (1 <= c_left c)%Z) ->
  (forall l1 i l2 s1, l = l1 ++ i :: l2 -> car_run s l1 = Ok s1 -> forall c1, at_ (k_cars s1) k c1 -> ~ leaves s1 i k c1) ->
  exists c', at_ (k_cars s') k c' /\ c_use c' = false /\ (c_chg c' = true <-> (1 <= c_left c')%Z) /\
    c_left c' = (if Z.leb 1 (c_left c) then Z.max 0 (c_left c - Z.of_nat (length l)) else c_left c).
Proof.
  intros n. induction l as [|i l IH]; intros s s' k c Hf Hu H Hc Hh Hst Hchg Hstay; simpl in H.
  - injection H as <-. exists c. split; [exact Hc|]. split; [exact Hh|]. split; [exact Hchg|]. simpl. destruct (Z.leb_spec 1 (c_left c)); lia.
  - destruct (car_do s i) as [s1|] eqn:E; simpl in H; [|discriminate]. pose proof (Hu i (or_introl eq_refl)) as Hi.
    destruct (car_step_full n s i s1 Hf Hi E) as (_ & _ & St & _ & _ & _ & _ & _ & _ & _ & A).
    destruct (A k c Hc) as (a & lv & b & t & st & p & X & Xa & Xl & Xp & Xt & (sl & Xs & Xst) & Xb).
    assert (Na : a = false). { destruct a; [|reflexivity]. destruct (proj1 Xa eq_refl) as (_ & Y & _). congruence. }
    assert (Nl : lv = false).
    { destruct lv; [|reflexivity]. exfalso. apply (Hstay [] i l s eq_refl eq_refl c Hc). apply Xl. reflexivity. }
    pose proof (at_fun _ _ _ _ _ Xst (Hst sl Xs)) as Es. subst a lv st.
    assert (Nb : b = false). { destruct b; [|reflexivity]. destruct (proj1 Xb eq_refl) as [[Y _]|(Y & _)]; discriminate. } subst b.
    destruct (moved_fields false false false t c) as ((M0 & _) & M1 & _ & M2 & M3). set (c1 := moved false false false t c) in *.
    cbn [negb andb orb] in *. rewrite Hh in M1.
    assert (Hchg1 : c_chg c1 = true <-> (1 <= c_left c1)%Z).
    { rewrite M3, andb_true_iff, Z.leb_le. split; [tauto|]. intro Y. split; [|exact Y]. apply Hchg. rewrite M2 in Y. destruct (c_chg c); lia. }
    destruct (IH s1 s' k c1) as (c' & C1 & C2 & C3 & C4); auto.
    + eapply fleet_step; eauto.
    + intros; apply Hu; right; assumption.
    + intros sl' Hsl. rewrite M0. apply Hst. congruence.
    + intros l1 i' l2 s2 El Er. apply (Hstay (i :: l1) i' l2 s2); [rewrite El; reflexivity|]. simpl. rewrite E. exact Er.
    + exists c'. split; [exact C1|]. split; [exact C2|]. split; [exact C3|]. rewrite C4, M2. cbn [length].
      destruct (c_chg c) eqn:Ec.
      * assert (1 <= c_left c)%Z by (apply Hchg; reflexivity). destruct (Z.leb_spec 1 (c_left c)); [|lia].
        destruct (Z.leb_spec 1 (c_left c - 1)); lia.
      * assert (~ (1 <= c_left c)%Z) by (intro Y; apply Hchg in Y; discriminate). destruct (Z.leb_spec 1 (c_left c)); [lia|].
        destruct (Z.leb_spec 1 (c_left c - 0)); lia.
Qed.

(** ** No errors *)

Lemma py_index_total : forall l (m : Z), (0 <= m < Z.of_nat (length l))%Z -> exists p : Q, bind (py_index (length l) m) (vget l) = Ok p.
Proof.
  intros l m Hm. unfold py_index. destruct (Z.leb_spec 0 m); [|lia]. destruct (Z.ltb_spec m (Z.of_nat (length l))); [|lia]. simpl.
  destruct (lt_at _ l (Z.to_nat m)) as [p Hp]; [lia|]. exists p. now apply vget_ok.
Qed.

Lemma leave_prob_total : forall o o' a a' w w', (o - o' <= 5)%Z -> exists p, leave_prob o o' a a' w w' = Ok p.
Proof.
  intros o o' a a' w w' H. unfold leave_prob. destruct (Z.ltb_spec o' o) as [Ho|Ho].
  - rewrite !andb_true_r. destruct (py_index_total prob_HWH (o - o')) as [p Hp]; [simpl; lia|].
    destruct (py_index_total prob_HOH (o - o')) as [q Hq]; [simpl; lia|].
    destruct (w <? w')%Z, (a <? a')%Z; rewrite ?Hp; cbn [bind]; rewrite ?Hq; eauto.
  - rewrite !andb_false_r. simpl. eauto.
Qed.

Lemma combine_in_at : forall A B (l : list A) (m : list B) x y, In (x, y) (combine l m) -> exists k, at_ l k x /\ at_ m k y.
Proof. intros A B l m x y H. apply in_combine_iff in H. exact H. Qed.

Lemma car_step_total : forall n s i, fleet n s -> uniform n i ->
  length (i_occ i) = n -> length (i_hoh i) = n -> length (i_hwh i) = n ->
  (exists sl, k_strategy s = Some sl) -> (forall h p, at_ (k_station s) h p -> ~ p == 0) ->
  (forall h o o', at_ (k_occ s) h o -> at_ (i_occ i) h o' -> (o - o' <= 5)%Z) ->
  exists s', car_do s i = Ok s'.
Proof.
  intros n s i (F1 & F2 & F3 & F4 & F5 & F6) (U1 & U2 & U3 & U4) L1 L2 L3 (sl & Hsl) Hst Hoc. unfold car_do, car_step.
  rewrite F1. unfold has_len. rewrite L1, L2, L3, !Nat.eqb_refl. cbn [andb negb].
  change (map _ (k_cars s)) with (map tick_used (k_cars s)). set (cars1 := map tick_used (k_cars s)).
  assert (R : exists r, mc_from_1d_pdf [1 # 10; 9 # 10] (i_arr i) = Ok r).
  { unfold mc_from_1d_pdf, mc_from_1d_cdf. cbn [cumsum cumsum_from]. apply mapM_total. intros u _. unfold mc_one. cbn [map].
    unfold argmax_bool. destruct (first_true _); eauto. }
  destruct R as [r Hr]. rewrite Hr. cbn [bind]. set (arrivals := map2 andb _ _).
  destruct (one_per_household_ok (map c_hh cars1) (map (fun c => hh_in arrivals (c_hh c) && c_use c) cars1)) as (arr0 & Ea & La & _).
  { rewrite !map_length. reflexivity. }
  rewrite Ea. cbn [bind]. set (arriving := map _ arr0).
  assert (Hhh1 : forall c, In c cars1 -> (c_hh c < n)%nat).
  { intros c Hc. apply in_map_iff in Hc. destruct Hc as (c0 & <- & Hc0). apply in_at in Hc0. destruct Hc0 as [k Hk].
    destruct (tick_same c0) as ((-> & _) & _). eauto. }
  assert (M2 : exists cars2, mapM (fun x => arrive (k_station s) (fst x) (snd x)) (combine arriving cars1) = Ok cars2).
  { apply mapM_total. intros [a c] Hin. apply in_combine_r in Hin. cbn [fst snd]. unfold arrive. destruct a; [|eauto].
    destruct (lt_at _ (k_station s) (c_hh c)) as [p Hp]. { rewrite F1. auto. }
    pose proof (Hst _ _ Hp) as Hne. apply vget_ok in Hp. rewrite Hp. cbn [bind]. unfold time_to_charge.
    destruct (Qeq_bool p 0) eqn:E0; [apply Qeq_bool_iff in E0; contradiction|]. cbn [bind]. eauto. }
  destruct M2 as [cars2 M2]. rewrite M2. cbn [bind]. rewrite Hsl. cbn [strategy_array bind].
  assert (Hhh2 : forall c, In c cars2 -> (c_hh c < n)%nat).
  { intros c Hc. apply In_nth_error in Hc. destruct Hc as [k Hk]. destruct (mapM_ok _ _ _ _ _ M2) as [Lk Kk].
    destruct (lt_at _ (combine arriving cars1) k) as [[a c1] Hx]. { rewrite <- Lk. apply nth_error_Some. congruence. }
    destruct (Kk k _ Hx) as (y & Hy & Ey). rewrite Hk in Hy. injection Hy as <-. cbn [fst snd] in Ey.
    assert (Hc1 : In c1 cars1) by (apply at_in in Hx; eapply in_combine_r; eauto). specialize (Hhh1 c1 Hc1).
    unfold arrive in Ey. destruct a; [|injection Ey as <-; exact Hhh1].
    destruct (vget (k_station s) (c_hh c1)) as [q|]; cbn [bind] in Ey; [|discriminate].
    destruct (time_to_charge c1 q); cbn [bind] in Ey; [|discriminate]. injection Ey as <-. exact Hhh1. }
  match goal with |- context [bind (mapM ?f ?l) _] => assert (M3 : exists cars3, mapM f l = Ok cars3) end.
  { apply mapM_total. intros [a c] Hin. apply in_combine_r in Hin. cbn [fst snd]. unfold start_charging.
    destruct (lt_at _ sl (c_hh c)) as [x Hx]. { rewrite (F6 _ Hsl). auto. } apply vget_ok in Hx. rewrite Hx. cbn [bind]. eauto. }
  destruct M3 as [cars3 M3]. rewrite M3. cbn [bind].
  match goal with |- context [bind (mapM ?f ?l) _] => assert (M4 : exists probs, mapM f l = Ok probs) end.
  { apply mapM_total. intros [[o o'] [[a a'] [w w']]] Hin. apply leave_prob_total. apply in_combine_l in Hin. apply combine_in_at in Hin.
    destruct Hin as (k & H1 & H2). eauto. }
  destruct M4 as [probs M4]. rewrite M4. cbn [bind]. set (lv := map2 _ probs (i_dep i)).
  destruct (one_per_household_ok (map c_hh cars1) (map (fun c => hh_in lv (c_hh c) && negb (c_use c)) cars3)) as (lv0 & El & _).
  { rewrite !map_length. destruct (mapM_ok _ _ _ _ _ M3) as [X3 _]. destruct (mapM_ok _ _ _ _ _ M2) as [X2 _].
    rewrite combine_length in X2, X3.
    assert (Larr : length arriving = length cars1) by (unfold arriving; rewrite map_length, La, map_length; reflexivity). lia. }
  rewrite El. cbn [bind]. eauto.
Qed.

(** ** Building the fleet *)

Lemma count_nat_repeat : forall h x n, count_nat h (repeat x n) = if Nat.eqb h x then n else 0%nat.
Proof. intros h x. induction n as [|n IH]; simpl; [destruct (Nat.eqb h x); reflexivity|]. rewrite IH. destruct (Nat.eqb h x); lia. Qed.

Lemma car_households_count : forall l b h, count_nat h (concat (map2 (fun i n => repeat i n) (seq b (length l)) l)) =
  if Nat.leb b h then nth (h - b) l 0%nat else 0%nat.
Proof.
  induction l as [|x l IH]; intros b h; simpl.
  - destruct (Nat.leb b h); [destruct (h - b)%nat; reflexivity|reflexivity].
  - rewrite count_nat_app, count_nat_repeat, IH. destruct (Nat.eqb_spec h b) as [->|Hne].
    + destruct (Nat.leb_spec (S b) b); [lia|]. rewrite Nat.leb_refl, Nat.sub_diag. lia.
    + destruct (Nat.leb_spec b h), (Nat.leb_spec (S b) h); try lia.
      replace (h - b)%nat with (S (h - S b)) by lia. reflexivity.
Qed.

(** ** Energy of a trip *)

Definition parked_unused (s : csim) : Prop := forall k c, at_ (k_cars s) k c -> c_use c = false -> c_used c = 0%Z.

Lemma parked_step : forall n s i s', fleet n s -> uniform n i -> parked_unused s -> car_do s i = Ok s' -> parked_unused s'.
Proof.
  intros n s i s' Hf Hu Hs H k c' Hc' Us. destruct (car_step_back _ _ _ _ _ _ Hf Hu H Hc') as [c Hc].
  destruct (car_step_full n s i s' Hf Hu H) as (_ & _ & _ & _ & _ & _ & _ & _ & _ & _ & A).
  destruct (A k c Hc) as (a & l & b & t & st & p & X & _). rewrite (at_fun _ _ _ _ _ Hc' X) in *.
  destruct (moved_fields a l b t c) as (_ & M1 & M2 & _). rewrite M2. rewrite M1 in Us. destruct a; [reflexivity|].
  apply orb_false_iff in Us. destruct Us as [_ Us]. rewrite andb_true_r in Us. rewrite Us. exact (Hs k c Hc Us).
Qed.

Lemma parked_run : forall n l s s', fleet n s -> (forall i, In i l -> uniform n i) -> parked_unused s -> car_run s l = Ok s' -> fleet n s' /\ parked_unused s'.
Proof.
  intros n. induction l as [|i l IH]; intros s s' Hf Hu Hs H; simpl in H; [injection H as <-; auto|].
  destruct (car_do s i) as [s1|] eqn:E; simpl in H; [|discriminate]. pose proof (Hu i (or_introl eq_refl)) as Hi.
  apply (IH s1 s'); [eapply fleet_step; eauto|intros; apply Hu; right; assumption|eapply parked_step; eauto|exact H].
Qed.

Lemma driving_at : forall s k c, at_ (k_cars s) k c -> exists w, at_ (driving_consumption s) k w /\
  (c_use c = true -> w == c_cons c * 230) /\ (c_use c = false -> w == 0).
Proof.
  intros s k c Hc. unfold driving_consumption. eexists. split; [apply at_map; exists c; split; [exact Hc|reflexivity]|].
  destruct (c_use c); split; intro E; try discriminate; [|reflexivity]. field.
Qed.

Lemma away_energy : forall n l s s' k c, fleet n s -> (forall i, In i l -> uniform n i) -> car_run s l = Ok s' ->
  at_ (k_cars s) k c -> c_use c = true ->
  (forall l1 i l2 s1 c1, l = l1 ++ i :: l2 -> car_run s l1 = Ok s1 -> at_ (k_cars s1) k c1 -> ~ arrives s1 i k c1) ->
  exists c' e, at_ (k_cars s') k c' /\ c_use c' = true /\ c_used c' = (c_used c + Z.of_nat (length l))%Z /\ same_car c c' /\
    joules s l k = Ok e /\ e == inject_Z (Z.of_nat (length l)) * (c_cons c * 138000).
Proof.
  intros n. induction l as [|i l IH]; intros s s' k c Hf Hu H Hc Us N; simpl in H.
  - injection H as <-. exists c, 0. split; [exact Hc|]. split; [exact Us|]. split; [simpl; lia|]. split; [repeat split|]. split; [reflexivity|]. simpl. unfold inject_Z. ring.
  - destruct (car_do s i) as [s1|] eqn:E; simpl in H; [|discriminate]. pose proof (Hu i (or_introl eq_refl)) as Hi.
    destruct (car_step_full n s i s1 Hf Hi E) as (_ & _ & _ & _ & _ & _ & _ & _ & _ & _ & A).
    destruct (A k c Hc) as (a & lv & b & t & st & p & X & Xa & _).
    assert (a = false). { destruct a; [|reflexivity]. exfalso. apply (N [] i l s c eq_refl eq_refl Hc). apply Xa. reflexivity. } subst a.
    destruct (moved_fields false lv b t c) as (M0 & M1 & M2 & _). set (c1 := moved false lv b t c) in *. rewrite Us in *.
    assert (U1 : c_use c1 = true) by (rewrite M1; destruct lv; reflexivity).
    destruct (IH s1 s' k c1) as (c' & e & C1 & C2 & C3 & C4 & C5 & C6); auto.
    + eapply fleet_step; eauto.
    + intros; apply Hu; right; assumption.
    + intros l1 i' l2 s2 c2 El Er. apply (N (i :: l1) i' l2 s2 c2); [rewrite El; reflexivity|]. simpl. rewrite E. exact Er.
    + destruct (driving_at s1 k c1 X) as (w & Hw & W & _). specialize (W U1).
      exists c', (w * 600 + e). split; [exact C1|]. split; [exact C2|]. split; [rewrite C3, M2; cbn [length]; lia|].
      split. { destruct M0 as (X1 & X2 & X3). destruct C4 as (Y1 & Y2 & Y3). unfold same_car. repeat split; congruence. }
      split. { cbn [joules]. rewrite E. cbn [bind]. rewrite (proj2 (vget_ok _ _ _ _) Hw). cbn [bind]. rewrite C5. reflexivity. }
      rewrite C6, W. destruct M0 as (_ & X2 & _). rewrite X2. cbn [length]. rewrite Nat2Z.inj_succ, <- Z.add_1_r, inject_Z_plus. change (inject_Z 1) with 1. ring.
Qed.

Lemma trip_energy_read : forall n s i0 s1 l s2 i s3 k c0 c1 c2, fleet n s -> parked_unused s -> uniform n i0 -> (forall i', In i' l -> uniform n i') -> uniform n i ->
  car_do s i0 = Ok s1 -> car_run s1 l = Ok s2 -> car_do s2 i = Ok s3 ->
  at_ (k_cars s) k c0 -> c_use c0 = false -> at_ (k_cars s1) k c1 -> c_use c1 = true ->
  (forall l1 i' l2 s' c', l = l1 ++ i' :: l2 -> car_run s1 l1 = Ok s' -> at_ (k_cars s') k c' -> ~ arrives s' i' k c') ->
  at_ (k_cars s2) k c2 -> arrives s2 i k c2 ->
  exists e p t d, joules s (i0 :: l) k = Ok e /\ at_ (k_station s2) (c_hh c2) p /\ ~ p == 0 /\ int_part (e / p / 600) t /\ at_ (k_cars s3) k d /\
    (c_left d = c_left c2 + t \/ c_left d = c_left c2 + t - 1)%Z.
Proof.
  intros n s i0 s1 l s2 i s3 k c0 c1 c2 Hf Hp Hi0 Hul Hi E0 El E Hc0 U0 Hc1 U1 N Hc2 Ar.
  destruct (car_step_full n s i0 s1 Hf Hi0 E0) as (_ & _ & _ & _ & _ & _ & _ & _ & _ & _ & A0).
  destruct (A0 k c0 Hc0) as (a0 & lv0 & b0 & t0 & st0 & p0 & X0 & Xa0 & _). pose proof (at_fun _ _ _ _ _ X0 Hc1) as E1.
  assert (a0 = false). { destruct a0; [|reflexivity]. destruct (proj1 Xa0 eq_refl) as (_ & Y & _). congruence. } subst a0.
  destruct (moved_fields false lv0 b0 t0 c0) as (M0 & _ & M2 & _). rewrite E1, U0, (Hp k c0 Hc0 U0) in M2. rewrite E1 in M0.
  pose proof (fleet_step n s i0 s1 Hf Hi0 E0) as Hf1.
  destruct (away_energy n l s1 s2 k c1 Hf1 Hul El Hc1 U1 N) as (c2' & e & C1 & C2 & C3 & C4 & C5 & C6). pose proof (at_fun _ _ _ _ _ C1 Hc2). subst c2'.
  assert (Hf2 : fleet n s2).
  { clear - Hf1 Hul El. revert s1 Hf1 El. induction l as [|x l IH]; intros s1 Hf1 El; simpl in El; [injection El as <-; exact Hf1|].
    destruct (car_do s1 x) as [s'|] eqn:E; simpl in El; [|discriminate]. apply (IH (fun i' I => Hul i' (or_intror I)) s'); [|exact El]. eapply fleet_step; [exact Hf1|apply Hul; left; reflexivity|exact E]. }
  destruct (car_step_full n s2 i s3 Hf2 Hi E) as (_ & _ & _ & _ & _ & _ & _ & _ & _ & _ & A).
  destruct (A k c2 Hc2) as (a & lv & b & t & st & p & X & Xa & Xl & Xp & Xt & _). assert (a = true) by (apply Xa; exact Ar). subst a.
  destruct (Xt eq_refl) as (Np & en & En & Ip). destruct (driving_at s1 k c1 Hc1) as (w & Hw & W & _). specialize (W U1).
  exists (w * 600 + e), p, t, (moved true lv b t c2). split. { cbn [joules]. rewrite E0. cbn [bind]. rewrite (proj2 (vget_ok _ _ _ _) Hw). cbn [bind]. rewrite C5. reflexivity. }
  split; [exact Xp|]. split; [exact Np|].
  assert (Q : (w * 600 + e) / p / 600 == en * 3600000 / p / 600).
  { assert (G : w * 600 + e == en * 3600000).
    { rewrite C3, M2 in En. destruct C4 as (_ & Cc & _). rewrite Cc in En. rewrite W, C6.
      replace (0 + Z.of_nat (length l) + 1)%Z with (Z.of_nat (length l) + 1)%Z in En by lia. rewrite inject_Z_plus in En. change (inject_Z 1) with 1 in En.
      assert (En' : en == c_cons c1 * ((inject_Z (Z.of_nat (length l)) + 1) / 6 * 23) / 100) by (rewrite <- En; field). rewrite En'. field. }
    rewrite G. reflexivity. }
  split. { unfold int_part in *. rewrite !Q. exact Ip. }
  split; [exact X|]. destruct (moved_fields true lv b t c2) as (_ & _ & _ & M3 & _). rewrite M3. destruct (negb lv && (b || c_chg c2)); [right|left]; lia.
Qed.

Lemma trip_read : forall n cars station strategy occ hoh hwh l0 s i0 s1 l s2 i s3 k c0 c1 c2,
  fleet n (new_csim cars station strategy occ hoh hwh) -> (forall i', In i' (l0 ++ i0 :: l ++ [i]) -> uniform n i') ->
  car_run (new_csim cars station strategy occ hoh hwh) l0 = Ok s -> car_do s i0 = Ok s1 -> car_run s1 l = Ok s2 -> car_do s2 i = Ok s3 ->
  at_ (k_cars s) k c0 -> c_use c0 = false -> at_ (k_cars s1) k c1 -> c_use c1 = true ->
  (forall l1 i' l2 s' c', l = l1 ++ i' :: l2 -> car_run s1 l1 = Ok s' -> at_ (k_cars s') k c' -> ~ arrives s' i' k c') ->
  at_ (k_cars s2) k c2 -> arrives s2 i k c2 ->
  exists e p t d, joules s (i0 :: l) k = Ok e /\ at_ (k_station s2) (c_hh c2) p /\ ~ p == 0 /\ int_part (e / p / 600) t /\ at_ (k_cars s3) k d /\
    (c_left d = c_left c2 + t \/ c_left d = c_left c2 + t - 1)%Z.
Proof.
  intros n cars station strategy occ hoh hwh l0 s i0 s1 l s2 i s3 k c0 c1 c2 Hf Hu H0 E0 El E.
  destruct (parked_run n l0 _ s Hf) as [Hf' Hp]; [intros i' I; apply Hu; apply in_or_app; left; exact I| |exact H0|].
  { intros k' c Hc _. simpl in Hc. apply at_map in Hc. destruct Hc as (x & _ & ->). reflexivity. }
  apply (trip_energy_read n s i0 s1 l s2 i s3); auto.
  - apply Hu. apply in_or_app. right. left. reflexivity.
  - intros i' I. apply Hu. apply in_or_app. right. right. apply in_or_app. left. exact I.
  - apply Hu. apply in_or_app. right. right. apply in_or_app. right. left. reflexivity.
Qed.
