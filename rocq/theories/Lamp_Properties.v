(** * C201, C202: the older lighting simulator. *)

From Coq Require Import String List ZArith QArith Bool Arith Lia Lqa.
From Verif Require Import Prelude PreludeFacts SpecBase SpecBaseFacts Parse_Model Sampling_Model Appliance_Model Appliance_Spec.
From Verif Require Import Matrix_Proofs Appliance_Proofs Light_Model Light_Spec Light_Proofs Lamp_Model Lamp_Spec Lamp_Proofs.
Import ListNotations.

Open Scope Q_scope.

(** ** C201 *)

(** One step of one bulb. *)
Theorem C201_step : forall par s i s' h j b n, old_do par s i = Ok s' -> obulb_at s h j b ->
  at_ (in_occ i) h n -> (0 <= n)%Z ->
  exists b', obulb_at s' h j b' /\ same_obulb b b' /\
    (n = 0%Z -> has_left b' 0) /\
    ((0 < n)%Z -> ready b -> switches_on par i h j b -> exists q, drawn_duration par i h j q /\ has_left b' q) /\
    ((0 < n)%Z -> ~ (ready b /\ switches_on par i h j b) -> minute_less b b').
Proof. exact old_step_at. Qed.

(** Nobody active: every bulb is dark and nothing is consumed. *)
Theorem C201_nobody : forall n k par s i s' h, old_lights n k s -> old_do par s i = Ok s' -> nobody i h ->
  (forall j, ~ olit s' h j) /\ exists c, at_ (old_consumption s') h c /\ c == 0.
Proof.
  intros n k par s i s' h Hs H Hn. destruct (old_step_lights _ _ _ _ _ _ Hs H) as [Hs' Hl].
  assert (Hh : (h < n)%nat) by (apply at_lt in Hn; lia).
  assert (Z : forall j, ~ olit s' h j).
  { intros j (b' & t & Hb' & Ht & Hpos). assert (Hj : (j < k)%nat). { destruct Hb' as (B & _). apply (at2_shaped _ _ _ _ _ _ _ (proj1 Hs') B). }
    destruct Hs as (S1 & S2 & S3 & S4). destruct (shaped_at2 _ _ _ _ _ _ S1 Hh Hj) as [p Hp].
    destruct (shaped_at2 _ _ _ _ _ _ S2 Hh Hj) as [u Hu]. destruct (lt_at _ (o_thr s) h) as [th Hth]; [lia|].
    destruct (shaped_at2 _ _ _ _ _ _ S4 Hh Hj) as [l Hl'].
    destruct (old_step_at par s i s' h j (OBulb p u th l) 0 H) as (b & B1 & _ & B2 & _); [|exact Hn|lia|].
    { split; [exact Hp|]. split; [exact Hu|]. split; [exact Hth|exact Hl']. }
    specialize (B2 eq_refl). unfold has_left in Ht. rewrite (obulb_left_fun _ _ _ _ _ Hb' B1) in Ht. change (has_left b t) in Ht.
    pose proof (has_left_fun _ _ _ Ht B2). lra. }
  split; [exact Z|].
  destruct (old_consumption_at n k s' h Hs' Hh) as (c & terms & Hc & Ec & Elen & A). exists c. split; [exact Hc|].
  rewrite Ec, (total_qsum terms). apply qsum_zero. apply Forall_forall. intros x Hx. apply in_at in Hx. destruct Hx as [j Hx].
  destruct (A j) as (b & y & Hb & Hy & _ & Hz). { apply at_lt in Hx. lia. } rewrite (at_fun _ _ _ _ _ Hx Hy). apply Hz. right. apply Z.
Qed.

(** The consumption is the sum of the powers of the lit bulbs; a missing bulb counts for
    nothing. *)
Theorem C201_consumption : forall n k s h, old_lights n k s -> (h < n)%nat -> exists c terms,
  at_ (old_consumption s) h c /\ c == total terms /\ length terms = k /\
  forall j, (j < k)%nat -> exists b x, obulb_at s h j b /\ at_ terms j x /\
    (forall p, ob_pow b = Some p -> olit s h j -> x == p) /\
    ((ob_pow b = None \/ ~ olit s h j) -> x == 0).
Proof. exact old_consumption_at. Qed.

(** What a step refuses: another number of households; and nothing else when the data covers
    the numbers of occupants. *)
Theorem C201_no_error : forall n k par s i, old_lights n k s ->
  (length (in_occ i) <> n -> old_do par s i = Err AssertionError) /\
  (length (in_occ i) = n -> (forall h m, at_ (in_occ i) h m -> (0 <= m < Z.of_nat (length (p_eff par)))%Z) ->
   p_cdf par <> [] -> (length (p_cdf par) <= length (p_low par))%nat -> (length (p_cdf par) <= length (p_high par))%nat ->
   exists s', old_do par s i = Ok s' /\ old_lights n k s').
Proof.
  intros n k par s i Hs. split.
  - intro N. unfold old_do, old_step. destruct (Nat.eqb_spec (length (in_occ i)) (length (o_power s))) as [E|E]; [|reflexivity].
    exfalso. apply N. destruct Hs as [[S1 _] _]. lia.
  - intros H1 H2 H3 H4 H5. destruct (old_step_total n k par s i Hs H1 H2 H3 H4 H5) as [s' E].
    exists s'. split; [exact E|]. exact (proj1 (old_step_lights _ _ _ _ _ _ Hs E)).
Qed.

(** A new simulator: every household has the configuration drawn and a threshold of
    60 + 10 g, and no bulb is lit. *)
Theorem C201_new : forall configs k r g e sheet, (forall c, In c configs -> length c = k) ->
  (forall x, In x r -> (x < length configs)%nat) -> length g = length r ->
  exists s par, old_init "CREST" "off" configs r g e sheet = Ok (s, par) /\ old_lights (length r) k s /\
    (forall h x, at_ r h x -> exists c, at_ configs x c /\ at_ (o_power s) h c) /\
    (forall h z, at_ g h z -> exists t, at_ (o_thr s) h t /\ t == 60 + 10 * z) /\
    (forall h j, ~ olit s h j) /\
    (forall h j b, obulb_at s h j b -> (ob_pow b = None -> ob_left b = None) /\ (forall p, ob_pow b = Some p -> has_left b 0)) /\
    forall i, length (in_occ i) = length r -> (forall h m, at_ (in_occ i) h m -> (0 <= m < 6)%Z) -> exists s', old_do par s i = Ok s'.
Proof.
  intros configs k r g e sheet Hk Hr Hg. unfold old_init.
  unfold bulbs_config. destruct (mapM_total _ _ (vget configs) r) as [m E].
  { intros x Hx. destruct (lt_at _ configs x (Hr x Hx)) as [row Hrow]. exists row. now apply vget_ok. }
  unfold known_data. change (String.eqb "CREST" "CREST") with true. cbn [orb negb]. rewrite E. cbn [bind fst snd].
  unfold old_initialize. change (String.eqb "off" "off") with true. cbn [bind].
  destruct (mapM_ok _ _ _ _ _ E) as [L K].
  assert (Sm : shaped (length r) k m).
  { split; [exact L|]. intros h row Hrow. destruct (lt_at _ r h) as [x Hx]. { apply at_lt in Hrow. lia. }
    destruct (K h x Hx) as (row' & H1 & H2). rewrite (at_fun _ _ _ _ _ Hrow H1). apply vget_ok in H2. apply Hk. eapply at_in; eauto. }
  match goal with |- context [Ok (?x, crest_params)] => set (s := x) end. exists s, crest_params. split; [reflexivity|].
  assert (Lc : forall A B (f : nat -> nat -> A -> B) (x : list (list A)), shaped (length r) k x -> shaped (length r) k (cells f x)).
  { intros A B f x [X1 X2]. unfold cells. split; [rewrite map2_length, seq_length; lia|]. intros h row Hrow. apply at_map2 in Hrow.
    destruct Hrow as (h' & row' & _ & R1 & ->). rewrite map2_length, seq_length, Nat.min_id. eauto. }
  assert (Sl : old_lights (length r) k s).
  { split; [exact Sm|]. split; [apply Lc; exact Sm|]. split; [simpl; rewrite map_length; exact Hg|]. apply shaped_map. exact Sm. }
  split; [exact Sl|]. split.
  { intros h x Hx. destruct (K h x Hx) as (row & H1 & H2). exists row. split; [now apply vget_ok|exact H1]. }
  split. { intros h z Hz. eexists. split; [apply at_map; exists z; split; [exact Hz|reflexivity]|]. reflexivity. }
  assert (Z : forall h j b, obulb_at s h j b -> (ob_pow b = None -> ob_left b = None) /\ (forall p, ob_pow b = Some p -> has_left b 0)).
  { intros h j b (B1 & _ & _ & B4). apply at2_map in B4. destruct B4 as (p & Hp & Ep). rewrite (at2_fun _ _ _ _ _ _ Hp B1) in Ep.
    split; intros; rewrite H in Ep; simpl in Ep; [exact Ep|]. eexists. split; [exact Ep|ring]. }
  split.
  { intros h j (b & t & Hb & (x & Hx & X) & Hpos). destruct (Z h j b Hb) as [Z1 Z2]. destruct (ob_pow b) as [p|].
    - destruct (Z2 p eq_refl) as (y & Hy & Y). rewrite Hx in Hy. injection Hy as <-. lra.
    - rewrite (Z1 eq_refl) in Hx. discriminate. }
  split; [exact Z|]. intros i H1 H2. eapply old_step_total; [exact Sl|exact H1| | | |]; simpl; try lia; [exact H2|discriminate].
Qed.

(** Names that are not known are refused. *)
Theorem C201_names : forall data method configs r g e sheet,
  (data <> "CREST"%string -> data <> "GTOU"%string -> old_init data method configs r g e sheet = Err ValueError) /\
  (method <> "off"%string -> forall x, old_init data method configs r g e sheet <> Ok x).
Proof.
  intros data method configs r g e sheet. split.
  - intros N1 N2. apply String.eqb_neq in N1. apply String.eqb_neq in N2. unfold old_init, known_data. rewrite N1, N2. reflexivity.
  - intros N x. apply String.eqb_neq in N. unfold old_init, old_initialize. rewrite N.
    destruct (negb (known_data data)); [discriminate|].
    match goal with |- bind ?a _ <> _ => destruct a end; simpl; discriminate.
Qed.

(** What is wanted: when the draws of a step would switch on a dark bulb of an occupied
    household, the bulb is lit.  It is not so once a duration with a fractional part has run
    out: the time left is then negative, and stays so as long as somebody is at home. *)
Definition one_bulb : list (list (option Q)) := [[Some 60]].
Definition at_home (on e r : Q) := LIn (LDraws (fun _ _ => 1) (fun _ _ => on) (fun _ _ => e) (fun _ _ => r)) [2%Z] 0.

Theorem C201_relit_refuted : exists s par l s1 b,
  old_init "CREST" "off" one_bulb [0%nat] [0] (fun _ _ => 1) (Err FileNotFoundError) = Ok (s, par) /\
  old_run par s l = Ok s1 /\ obulb_at s1 0 0 b /\ ~ olit s1 0 0 /\
  (exists i s2, active i 0 /\ switches_on par i 0 0 b /\ old_do par s1 i = Ok s2) /\
  forall l' s2, (forall i, In i l' -> active i 0) -> old_run par s1 l' = Ok s2 -> ~ olit s2 0 0.
Proof.
  destruct (C201_new one_bulb 1 [0%nat] [0] (fun _ _ => 1) (Err FileNotFoundError)) as (s & par & E & Sl & _ & _ & _ & _ & _).
  { intros c [<-|[]]. reflexivity. } { intros x [<-|[]]. simpl. lia. } { reflexivity. }
  pose proof E as E'. vm_compute in E'. injection E' as Es Ep.
  exists s, par, [at_home 0 (3 # 10) (1 # 2); at_home 1 0 0; at_home 1 0 0; at_home 1 0 0; at_home 1 0 0].
  destruct (old_run par s [at_home 0 (3 # 10) (1 # 2); at_home 1 0 0; at_home 1 0 0; at_home 1 0 0; at_home 1 0 0]) as [s1|] eqn:R;
    [|rewrite <- Es, <- Ep in R; vm_compute in R; discriminate].
  rewrite <- Es, <- Ep in R. vm_compute in R. injection R as R.
  exists s1, (OBulb (Some 60) 1 60 (Some (- 1 # 2))).
  split; [exact E|]. split; [reflexivity|].
  assert (B : obulb_at s1 0 0 (OBulb (Some 60) 1 60 (Some (- 1 # 2)))).
  { rewrite <- R. repeat split; eexists; split; reflexivity. }
  assert (T : has_left (OBulb (Some 60) 1 60 (Some (- 1 # 2))) (- (1 # 2))) by (eexists; split; [reflexivity|reflexivity]).
  assert (D : forall l' s2, (forall i, In i l' -> active i 0) -> old_run par s1 l' = Ok s2 -> ~ olit s2 0 0).
  { intros l' s2 Ha H (b2 & t2 & B2 & T2 & P2).
    destruct (old_run_negative par l' s1 s2 0 0 _ _ H B T ltac:(reflexivity) Ha) as (b3 & B3 & _ & T3).
    unfold has_left in T2. rewrite (obulb_left_fun _ _ _ _ _ B2 B3) in T2. change (has_left b3 t2) in T2.
    pose proof (has_left_fun _ _ _ T2 T3). lra. }
  split; [exact B|]. split; [exact (D [] s1 (fun i Hi => match Hi with end) eq_refl)|]. split; [|exact D].
  exists (at_home 0 0 0).
  destruct (old_do par s1 (at_home 0 0 0)) as [s2|] eqn:R2; [|rewrite <- R, <- Ep in R2; vm_compute in R2; discriminate].
  exists s2. split; [exists 2%Z; split; [reflexivity|lia]|]. split; [|reflexivity].
  split; [left; reflexivity|]. exists 2%Z, (1528 # 1000). split; [reflexivity|]. rewrite <- Ep. split; [reflexivity|]. reflexivity.
Qed.

(** In general: a bulb with a time left that is not a whole number is lit as long as the steps
    are fewer than this time, and dark after that, whatever is drawn, until nobody is at home. *)
Theorem C201_fraction_partial : forall par l s s' h j b t, old_run par s l = Ok s' -> obulb_at s h j b -> has_left b t ->
  fractional t -> 0 < t -> (forall i, In i l -> active i h) ->
  (olit s' h j <-> inject_Z (Z.of_nat (length l)) < t).
Proof. exact old_run_fraction. Qed.

(** With a whole number of minutes left, z, the bulb is lit for z - 1 more steps; the draws of
    the step after that decide. *)
Theorem C201_whole_partial : forall par l i s s1 s2 h j b z, old_run par s l = Ok s1 -> obulb_at s h j b ->
  has_left b (inject_Z z) -> (0 < z)%Z -> (forall i, In i l -> active i h) ->
  ((Z.of_nat (length l) < z)%Z -> olit s1 h j) /\
  (Z.of_nat (length l) = (z - 1)%Z -> active i h -> old_do par s1 i = Ok s2 ->
   (~ switches_on par i h j b -> ~ olit s2 h j) /\
   (switches_on par i h j b -> exists q, drawn_duration par i h j q /\ (0 < q -> olit s2 h j))).
Proof.
  intros par l i s s1 s2 h j b z H Hb Ht Hz Ha.
  assert (R : (Z.of_nat (length l) < z)%Z -> exists b', obulb_at s1 h j b' /\ same_obulb b b' /\ has_left b' (inject_Z z - inject_Z (Z.of_nat (length l)))).
  { intro Hl. apply (old_run_left par l s s1 h j b _ H Hb Ht Ha). rewrite <- Zlt_Qlt. exact Hl. }
  split.
  - intro Hl. destruct (R Hl) as (b' & B1 & _ & T). eexists b', _. split; [exact B1|]. split; [exact T|]. rewrite Zlt_Qlt in Hl. lra.
  - intros Hl (n & Hn & Hn0) H2. destruct (R ltac:(lia)) as (b' & B1 & (E1 & E2 & E3) & T). rewrite Hl in T.
    assert (T1 : has_left b' 1). { eapply has_left_eq; [exact T|]. assert (EZ : inject_Z (z - 1) == inject_Z z - 1) by (unfold Z.sub; rewrite inject_Z_plus; reflexivity). rewrite EZ. ring. }
    destruct (old_step_at par s1 i s2 h j b' n H2 B1 Hn ltac:(lia)) as (b2 & B2 & _ & _ & K1 & K2).
    assert (SW : switches_on par i h j b' <-> switches_on par i h j b) by (unfold switches_on; rewrite E2, E3; reflexivity).
    split.
    + intros N. destruct (K2 Hn0) as (_ & M & _); [intros [_ X]; apply N, SW, X|]. specialize (M 1 T1 ltac:(lra)).
      intros (b3 & t3 & B3 & T3 & P3). unfold has_left in T3. rewrite (obulb_left_fun _ _ _ _ _ B3 B2) in T3. change (has_left b2 t3) in T3.
      pose proof (has_left_fun _ _ _ T3 M). lra.
    + intros S. destruct (K1 Hn0 (or_intror T1) (proj2 SW S)) as (q & Q1 & Q2). exists q. split; [exact Q1|]. intro P. exists b2, q. auto.
Qed.

Definition old_lefts (r : result osim) := match r with Ok s => map (map (option_map Qred)) (o_left s) | Err _ => [] end.
Definition old_powers (r : result osim) := match r with Ok s => map Qred (old_consumption s) | Err _ => [] end.
Definition old_lamps := OSim [[Some 60; Some 40]; [Some 100; None]] [[1; 2]; [1; 1]] [50; 10] [[Some 0; Some 0]; [Some 0; None]].
Definition old_pars := LPar (1 # 2) [0; 1; (3 # 2)] [(1 # 2); 1] [1; 3] [3; 9].
Definition draws_of (five on e r : Q) := LDraws (fun _ _ => five) (fun _ _ => on) (fun _ _ => e) (fun _ _ => r).
Definition begin_ := LIn (draws_of 1 (1 # 4) (3 # 4) (1 # 4)) [1; 1]%Z 20.
Definition wait_ := LIn (draws_of 1 1 (3 # 4) (1 # 2)) [1; 1]%Z 20.
Definition away_ := LIn (draws_of 1 1 0 0) [0; 0]%Z 20.

(** The bulbs of the first household start for 3 + 6/4 = 4.5 minutes. *)
Example C201_example :
  old_lefts (old_run old_pars old_lamps [begin_]) = [[Some (9 # 2); Some (9 # 2)]; [Some 0; None]] /\
  old_powers (old_run old_pars old_lamps [begin_]) = [100; 0] /\
  old_powers (old_run old_pars old_lamps [begin_; wait_; wait_; wait_; wait_]) = [100; 0] /\
  old_powers (old_run old_pars old_lamps [begin_; wait_; wait_; wait_; wait_; wait_]) = [0; 0] /\
  old_lefts (old_run old_pars old_lamps [begin_; wait_; wait_; wait_; wait_; wait_; begin_]) = [[Some (- 1 # 2); Some (- 1 # 2)]; [Some 0; None]] /\
  old_lefts (old_run old_pars old_lamps [begin_; wait_; wait_; wait_; wait_; wait_; away_; begin_]) = [[Some (9 # 2); Some (9 # 2)]; [Some 0; Some 0]] /\
  old_run old_pars old_lamps [LIn (draws_of 1 1 0 0) [1]%Z 20] = Err AssertionError /\
  old_run old_pars old_lamps [LIn (draws_of 1 1 0 0) [3; 1]%Z 20] = Err IndexError /\
  old_init "UK" "off" one_bulb [0%nat] [0] (fun _ _ => 1) (Err FileNotFoundError) = Err ValueError.
Proof. conj_vm. Qed.

(** ** C202 *)

(** Every household has at least one bulb: it is so when one of the numbers drawn is at least
    one. *)
Theorem C202_sampled_partial : forall mean std cons pen g u m, old_sample mean std cons pen g u = Ok m ->
  (exists x z, In x g /\ int_part (mean + std * x) z /\ (1 <= z)%Z) ->
  length m = length g /\
  exists width, (forall h row, at_ m h row -> length row = width) /\
  forall h x row, at_ g h x -> at_ m h row ->
    exists n, (1 <= n <= width)%nat /\
      (forall z, int_part (mean + std * x) z -> n = Z.to_nat (Z.max 1 z)) /\
      (forall j p, at_ row j p -> (j < n)%nat -> In p cons) /\
      (forall j p, at_ row j p -> (n <= j)%nat -> p = 0).
Proof. exact old_sample_ok. Qed.

(** Otherwise nobody has a bulb, or the call fails. *)
Theorem C202_none : forall mean std cons pen g u, length pen = length cons -> pen <> [] -> g <> [] ->
  (forall x, In x g -> exists z, int_part (mean + std * x) z /\ (z <= 0)%Z) ->
  ((exists x, In x g /\ int_part (mean + std * x) 0) -> old_sample mean std cons pen g u = Ok (map (fun _ => []) g)) /\
  ((forall x, In x g -> ~ int_part (mean + std * x) 0) -> old_sample mean std cons pen g u = Err ValueError).
Proof. exact old_sample_none. Qed.

Theorem C202_at_least_one_refuted : exists mean std cons pen g u m, 1 < mean /\ old_sample mean std cons pen g u = Ok m /\
  length m = length g /\ forall h row, at_ m h row -> row = [].
Proof.
  exists (3 # 2), 1, [60; 20], [1 # 2; 1 # 2], [- (1); - (3 # 4)], (fun _ _ => 0), [[]; []].
  split; [reflexivity|]. split; [vm_compute; reflexivity|]. split; [reflexivity|].
  intros [|[|h]] row E; unfold at_ in E; simpl in E; [congruence|congruence|]. destruct h; discriminate.
Qed.

Theorem C202_refused : forall mean std cons pen g u,
  (length pen <> length cons -> old_sample mean std cons pen g u = Err AssertionError) /\
  (length pen = length cons -> old_sample mean std cons pen [] u = Err ValueError).
Proof.
  intros. unfold old_sample. split; intro E.
  - apply Nat.eqb_neq in E. rewrite E. reflexivity.
  - rewrite E, Nat.eqb_refl. reflexivity.
Qed.

Example C202_example :
  old_sample 2 1 [60; 20] [(1 # 2); (1 # 2)] [1; -3] (fun h j => if (j =? 1)%nat then 3 # 4 else 0) = Ok [[60; 20; 60]; [60; 0; 0]] /\
  old_sample 2 1 [60; 20] [(1 # 2); (1 # 2)] [-3; -4] (fun h j => 0) = Err ValueError /\
  old_sample 2 1 [60; 20] [(1 # 2); (1 # 2)] [-3; -2] (fun h j => 0) = Ok [[]; []].
Proof. conj_vm. Qed.

Print Assumptions C201_step.
Print Assumptions C201_nobody.
Print Assumptions C201_consumption.
Print Assumptions C201_no_error.
Print Assumptions C201_new.
Print Assumptions C201_names.
Print Assumptions C201_relit_refuted.
Print Assumptions C201_fraction_partial.
Print Assumptions C201_whole_partial.
Print Assumptions C202_sampled_partial.
Print Assumptions C202_none.
Print Assumptions C202_at_least_one_refuted.
Print Assumptions C202_refused.
