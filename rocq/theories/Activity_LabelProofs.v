(** * Proofs about state labels, occupancy and relabelling. *)

From Coq Require Import String List ZArith QArith Bool Lia Arith ZifyBool ZifyNat.
From Verif Require Import Prelude PreludeFacts SpecBase SpecBaseFacts Sampling_Model Sampling_Spec
  Parse_Model Parse_Spec Parse_Proofs Parse_DurProofs Parse_GroupProofs Sparse_Model Activity_Model Activity_Spec Activity_Proofs.
Import ListNotations.

Set Implicit Arguments.

Local Open Scope Z_scope.

(** ** Base-7 digits *)

Lemma label_digit_div : forall a v, label_digit a v = (v / 7 ^ Z.of_nat a) mod 7.
Proof.
  intros a v. unfold label_digit, max_people.
  assert (Hp : 0 < 7 ^ Z.of_nat a) by (apply Z.pow_pos_nonneg; lia).
  rewrite Z.pow_add_r by lia. change (7 ^ 1) with 7.
  rewrite Z.rem_mul_r by lia.
  rewrite Z.mul_comm with (n := 7 ^ Z.of_nat a) (m := (v / 7 ^ Z.of_nat a) mod 7).
  rewrite Z.div_add by lia. rewrite Z.div_small; [lia|]. apply Z.mod_pos_bound. exact Hp.
Qed.

Fixpoint val (c : nat -> Z) (K : nat) : Z :=
  match K with O => 0 | S K => val c K + c K * 7 ^ Z.of_nat K end.

Lemma val_bound : forall c K, (forall a, 0 <= c a <= 6) -> 0 <= val c K < 7 ^ Z.of_nat K.
Proof.
  intros c K Hc. induction K as [|K IH]; cbn [val]; [lia|].
  rewrite Nat2Z.inj_succ, Z.pow_succ_r by lia. specialize (Hc K).
  assert (Hp : 0 < 7 ^ Z.of_nat K) by (apply Z.pow_pos_nonneg; lia). nia.
Qed.

Lemma val_split : forall c a m, exists r, val c (S a + m) = val c a + 7 ^ Z.of_nat a * (c a + 7 * r).
Proof.
  intros c a m. induction m as [|m [r IH]].
  - exists 0. rewrite Nat.add_0_r. cbn [val]. ring.
  - rewrite Nat.add_succ_r. cbn [val]. rewrite IH. exists (r + c (S a + m)%nat * 7 ^ Z.of_nat m).
    replace (Z.of_nat (S a + m)) with (Z.of_nat a + (1 + Z.of_nat m)) by lia.
    rewrite Z.pow_add_r, Z.pow_add_r by lia. ring.
Qed.

Lemma val_digit : forall c K a, (forall a, 0 <= c a <= 6) -> (forall a, (K <= a)%nat -> c a = 0) ->
  label_digit a (val c K) = c a.
Proof.
  intros c K a Hc H0. rewrite label_digit_div.
  assert (Hp : 0 < 7 ^ Z.of_nat a) by (apply Z.pow_pos_nonneg; lia).
  destruct (le_lt_dec K a) as [Hle|Hlt].
  - rewrite (H0 a Hle). rewrite Z.div_small; [reflexivity|]. pose proof (val_bound c K Hc).
    assert (7 ^ Z.of_nat K <= 7 ^ Z.of_nat a) by (apply Z.pow_le_mono_r; lia). lia.
  - destruct (val_split c a (K - S a)) as [r Hr]. replace (S a + (K - S a))%nat with K in Hr by lia. rewrite Hr.
    rewrite Z.mul_comm with (n := 7 ^ Z.of_nat a), Z.div_add by lia. pose proof (val_bound c a Hc) as Hb.
    rewrite (Z.div_small (val c a)) by exact Hb. rewrite Z.add_0_l.
    replace (c a + 7 * r) with (c a + r * 7) by ring. rewrite Z.mod_add by lia. apply Z.mod_small. specialize (Hc a). lia.
Qed.

Lemma val_ext : forall c d K, (forall a, (a < K)%nat -> c a = d a) -> val c K = val d K.
Proof. intros c d K H. induction K as [|K IH]; cbn [val]; [reflexivity|]. rewrite IH, (H K) by (intros; try apply H; lia). reflexivity. Qed.

Lemma val_add : forall c d K, val (fun a => c a + d a) K = val c K + val d K.
Proof. intros c d K. induction K as [|K IH]; cbn [val]; [reflexivity|]. rewrite IH. ring. Qed.

Lemma val_zero : forall K, val (fun _ => 0) K = 0.
Proof. induction K as [|K IH]; cbn [val]; lia. Qed.

Definition ind (x a : nat) : Z := if (x =? a)%nat then 1 else 0.

Lemma val_ind : forall K x, val (ind x) K = if (x <? K)%nat then 7 ^ Z.of_nat x else 0.
Proof.
  induction K as [|K IH]; intros x; cbn [val]; [reflexivity|]. rewrite IH. unfold ind.
  destruct (Nat.eqb_spec x K) as [->|H].
  - rewrite Nat.ltb_irrefl. destruct (Nat.ltb_spec K (S K)); lia.
  - destruct (Nat.ltb_spec x K), (Nat.ltb_spec x (S K)); lia.
Qed.

Definition has (a : nat) (acts : list nat) : bool := existsb (Nat.eqb a) acts.

Lemma member_val : forall K acts, NoDup acts -> (forall a, In a acts -> (a < K)%nat) ->
  fold_right Z.add 0 (map (fun a => 7 ^ Z.of_nat a) acts) = val (fun a => if has a acts then 1 else 0) K.
Proof.
  intros K acts Hn. induction Hn as [|x acts Hx Hn IH]; intros HK.
  - simpl. rewrite val_zero. reflexivity.
  - simpl fold_right. rewrite IH by (intros; apply HK; right; auto).
    rewrite (@val_ext (fun a => if has a (x :: acts) then 1 else 0) (fun a => ind x a + (if has a acts then 1 else 0))).
    + rewrite val_add, val_ind. assert (Hlt : (x < K)%nat) by (apply HK; left; auto).
      destruct (Nat.ltb_spec x K); lia.
    + intros a Ha. unfold has, ind. cbn [existsb]. rewrite Nat.eqb_sym. destruct (Nat.eqb_spec x a) as [->|Hne]; cbn [orb]; [|lia].
      destruct (existsb (Nat.eqb a) acts) eqn:E; [|lia]. apply existsb_exists in E as (y & Hy & E). apply Nat.eqb_eq in E. congruence.
Qed.

Lemma coded_val : forall K ms, Forall (fun acts => NoDup acts) ms -> (forall acts a, In acts ms -> In a acts -> (a < K)%nat) ->
  coded 7 ms = val (fun a => members (has a) ms) K.
Proof.
  intros K ms Hn. induction Hn as [|acts ms Ha Hn IH]; intros HK.
  - unfold coded, members. simpl. rewrite val_zero. reflexivity.
  - unfold coded in *. simpl fold_right. rewrite IH by (intros; eapply HK; [right|]; eauto).
    rewrite (@member_val K acts Ha) by (intros; eapply HK; [left|]; eauto). rewrite <- val_add. apply val_ext.
    intros a _. unfold members. simpl filter. destruct (has a acts); simpl length; lia.
Qed.

Lemma members_bound : forall A (f : A -> bool) l, 0 <= members f l <= Z.of_nat (length l).
Proof. intros A f l. unfold members. assert ((length (filter f l) <= length l)%nat) by (induction l as [|x l IH]; simpl; [lia|]; destruct (f x); simpl; lia). lia. Qed.

Lemma coded_digit : forall ms a, (length ms <= 6)%nat -> Forall (fun acts => NoDup acts) ms ->
  label_digit a (coded 7 ms) = members (has a) ms.
Proof.
  intros ms a Hlen Hn.
  set (K := S (list_max_nat (concat ms))).
  assert (HK : forall acts x, In acts ms -> In x acts -> (x < K)%nat).
  { intros acts x H1 H2. unfold K. pose proof (list_max_nat_ge (concat ms) x). assert (In x (concat ms)) by (apply in_concat; eauto). lia. }
  rewrite (@coded_val K) by auto.
  change (members (has a) ms) with ((fun a => members (has a) ms) a). apply val_digit.
  - intros b. pose proof (members_bound (has b) ms). lia.
  - intros b Hb. unfold members. replace (filter (has b) ms) with (@nil (list nat)); [reflexivity|]. symmetry.
    clearbody K. clear -Hb HK. induction ms as [|acts ms IH]; [reflexivity|]. simpl. unfold has at 1.
    destruct (existsb (Nat.eqb b) acts) eqn:E.
    + apply existsb_exists in E as (y & Hy & E). apply Nat.eqb_eq in E. subst y. specialize (HK acts b (or_introl eq_refl) Hy). lia.
    + apply IH. intros; eapply HK; [right|]; eauto.
Qed.

(** ** get_n_doing_state *)

Lemma labels_now_ok : forall (labels states : list Z) (good : nat -> Z -> Prop),
  (forall i x, at_ states i x -> exists lab, at_ labels (Z.to_nat x) lab /\ good i lab) ->
  exists ls, labels_now labels states = Ok ls /\ length ls = length states /\ forall i lab, at_ ls i lab -> good i lab.
Proof.
  intros labels states good H. unfold labels_now.
  destruct (mapM_total _ _ (fun s => get_at labels (Z.to_nat s)) states) as [ls Hls].
  { intros x Hx. apply in_at in Hx as [i Hi]. destruct (H i x Hi) as (lab & Hl & _). exists lab. apply get_at_ok. exact Hl. }
  exists ls. split; [exact Hls|]. apply mapM_ok in Hls as [Hl Hk]. split; [exact Hl|].
  intros i lab Hi. pose proof (at_lt _ _ _ _ Hi) as Hlt. rewrite Hl in Hlt. destruct (lt_at _ _ _ Hlt) as [x Hx].
  destruct (Hk _ _ Hx) as (lab' & Hlab' & Hg). apply get_at_ok in Hg. destruct (H i x Hx) as (lab'' & Hl'' & Hgood).
  rewrite (at_fun _ _ _ _ _ Hi Hlab'), (at_fun _ _ _ _ _ Hg Hl''). exact Hgood.
Qed.

Lemma where_from_nodup : forall m i, NoDup (where_from i m).
Proof.
  induction m as [|b m IH]; intros i; simpl; [constructor|]. destruct b; auto. constructor; auto.
  rewrite where_from_in. intros (k & E & _). lia.
Qed.

Lemma where_true_single : forall A (f : A -> bool) l p x, at_ l p x -> f x = true ->
  (forall q y, at_ l q y -> f y = true -> q = p) -> where_true (map f l) = [p].
Proof.
  intros A f l p x Hp Hf Hu.
  assert (Hin : forall q, In q (where_true (map f l)) <-> q = p).
  { intros q. rewrite where_true_in, nth_error_map. split.
    - destruct (nth_error l q) as [y|] eqn:E; [|discriminate]. simpl. intro H. injection H as H. eapply Hu; eauto.
    - intros ->. unfold at_ in Hp. rewrite Hp. simpl. congruence. }
  pose proof (where_from_nodup (map f l) 0) as Hn. fold (where_true (map f l)) in Hn.
  destruct (where_true (map f l)) as [|a [|b t]].
  - exfalso. apply (in_nil (a := p)). apply Hin. reflexivity.
  - f_equal. apply Hin. left. reflexivity.
  - exfalso. assert (a = p) by (apply Hin; left; auto). assert (b = p) by (apply Hin; right; left; auto).
    inversion Hn as [|? ? Hna _]; subst. apply Hna. left. auto.
Qed.

Lemma where_true_in' : forall m q, In q (where_true m) <-> nth_error m q = Some true.
Proof. intros. apply where_true_in. Qed.

(** Households described by their members. *)
Definition describes (s : spsim) (hs : list (list (list nat))) : Prop :=
  length hs = length (sp_states s) /\
  forall i x ms, at_ (sp_states s) i x -> at_ hs i ms ->
    at_ (sp_labels s) (Z.to_nat x) (coded 7 ms) /\ (length ms <= 6)%nat /\ Forall (fun acts => NoDup acts) ms.

Lemma doing_index : forall s hs a, describes s hs ->
  exists out, sp_doing s (ByIndex a) = Ok out /\ length out = length (sp_states s) /\
    forall i ms, at_ hs i ms -> at_ out i (members (fun acts => existsb (Nat.eqb a) acts) ms).
Proof.
  intros s hs a [Hl Hd].
  destruct (@labels_now_ok (sp_labels s) (sp_states s) (fun i lab => forall ms, at_ hs i ms -> label_digit a lab = members (has a) ms))
    as (ls & Hls & Hll & Hgood).
  { intros i x Hx. pose proof (at_lt _ _ _ _ Hx) as Hlt. rewrite <- Hl in Hlt. destruct (lt_at _ _ _ Hlt) as [ms Hms].
    destruct (Hd _ _ _ Hx Hms) as (H1 & H2 & H3). eexists. split; [exact H1|]. intros ms' Hms'.
    rewrite (at_fun _ _ _ _ _ Hms' Hms). apply coded_digit; auto. }
  cbn [sp_doing]. rewrite Hls. cbn [bind]. eexists. split; [reflexivity|]. rewrite map_length. split; [exact Hll|].
  intros i ms Hms. pose proof (at_lt _ _ _ _ Hms) as Hlt. rewrite Hl, <- Hll in Hlt. destruct (lt_at _ _ _ Hlt) as [lab Hlab].
  unfold at_. rewrite nth_error_map, Hlab. simpl. f_equal. apply (Hgood i lab Hlab ms Hms).
Qed.

Lemma doing_name : forall s hs a name, describes s hs -> at_ (sp_activities s) a name ->
  (forall b, at_ (sp_activities s) b name -> b = a) ->
  sp_doing s (ByName name) = sp_doing s (ByIndex a).
Proof.
  intros s hs a name _ Ha Hu. unfold sp_doing. rewrite (@where_true_single _ (String.eqb name) _ a name); auto.
  - apply String.eqb_refl.
  - intros q y Hq Hy. apply String.eqb_eq in Hy. subst y. apply Hu. exact Hq.
Qed.

Lemma doing_unknown : forall s name, ~ In name (sp_activities s) -> sp_doing s (ByName name) = Err ValueError.
Proof.
  intros s name H. unfold sp_doing. destruct (where_true (map (String.eqb name) (sp_activities s))) as [|p t] eqn:E; [reflexivity|].
  exfalso. assert (Hp : In p (where_true (map (String.eqb name) (sp_activities s)))) by (rewrite E; left; auto).
  rewrite where_true_in, nth_error_map in Hp. destruct (nth_error (sp_activities s) p) as [y|] eqn:Ey; [|discriminate].
  simpl in Hp. injection Hp as Hp. apply String.eqb_eq in Hp. subst y. apply H. eapply nth_error_In; eauto.
Qed.

(** ** The transit simulator *)

Definition acts_of (p : bool * Z) : list nat :=
  if snd p =? 0 then (if fst p then [0%nat] else []) else [Z.to_nat (snd p)].

Lemma household_coded : forall ps, (forall p, In p ps -> 0 <= snd p) -> household_code ps = coded 7 (map acts_of ps).
Proof.
  induction ps as [|[act out] ps IH]; intros H; [reflexivity|]. unfold coded in *. cbn [map fold_right household_code].
  fold (household_code ps). rewrite IH by (intros; apply H; right; auto). f_equal. cbn [fst snd]. unfold person_code, acts_of. cbn [fst snd].
  specialize (H (act, out) (or_introl eq_refl)). cbn [snd] in H.
  destruct (Z.eqb_spec out 0) as [->|Hne]; [destruct act; reflexivity|]. cbn [map fold_right]. unfold max_people.
  rewrite Z2Nat.id by lia. replace (1 + out - 1) with out by lia. lia.
Qed.

Lemma acts_nodup : forall p, NoDup (acts_of p).
Proof. intros [act out]. unfold acts_of. cbn [fst snd]. destruct (out =? 0); [destruct act|]; repeat constructor; simpl; tauto. Qed.

Lemma members_map : forall A B (g : A -> B) f l, members f (map g l) = members (fun x => f (g x)) l.
Proof.
  intros A B g f l. unfold members. f_equal. induction l as [|x l IH]; [reflexivity|]. simpl. destruct (f (g x)); simpl; auto.
Qed.

Lemma members_ext : forall A (f g : A -> bool) l, (forall x, In x l -> f x = g x) -> members f l = members g l.
Proof.
  intros A f g l H. unfold members. f_equal. f_equal. apply filter_ext_in. exact H.
Qed.

Lemma members_cons : forall A (f : A -> bool) x l, members f (x :: l) = (if f x then 1 else 0) + members f l.
Proof. intros. unfold members. simpl. destruct (f x); simpl length; lia. Qed.

Definition is_home (p : bool * Z) : bool := snd p =? 0.
Definition home_active (p : bool * Z) : bool := (snd p =? 0) && fst p.

Ltac test_ifs := repeat match goal with |- context [if ?b then 1 else 0] =>
  let v := eval vm_compute in b in change (if b then 1 else 0) with (if v then 1 else 0); cbn iota end.

Section Transit.
  Variables (s : spsim) (hs : list (list (bool * Z))) (n : Z).
  Hypothesis names : sp_activities s = transit_names.
  Hypothesis len : length hs = length (sp_states s).
  Hypothesis lab : forall i x ps, at_ (sp_states s) i x -> at_ hs i ps -> at_ (sp_labels s) (Z.to_nat x) (household_code ps).
  Hypothesis dom : forall i ps p, at_ hs i ps -> In p ps -> snd p = 0 \/ snd p = 1 \/ snd p = 2.
  Hypothesis size : forall i ps, at_ hs i ps -> (length ps <= 6)%nat.

  Lemma transit_describes : describes s (map (map acts_of) hs).
  Proof.
    split; [rewrite map_length; exact len|]. intros i x ms Hx Hms. unfold at_ in Hms. rewrite nth_error_map in Hms.
    destruct (nth_error hs i) as [ps|] eqn:E; [|discriminate]. injection Hms as <-. split; [|split].
    - rewrite <- household_coded; [eapply lab; eauto|]. intros p Hp. destruct (@dom _ _ _ E Hp) as [->|[->| ->]]; lia.
    - rewrite map_length. eapply size; eauto.
    - apply Forall_forall. intros acts Ha. apply in_map_iff in Ha as (p & <- & _). apply acts_nodup.
  Qed.

  Lemma transit_doing : forall a name, at_ transit_names a name ->
    exists out, sp_doing s (ByName name) = Ok out /\ length out = length hs /\
      forall i ps, at_ hs i ps -> at_ out i (members (fun p => has a (acts_of p)) ps).
  Proof.
    intros a name Ha.
    destruct (doing_index a transit_describes) as (out & Ho & Hl & Hk).
    exists out. split; [|split].
    - rewrite (@doing_name s _ a name transit_describes); [exact Ho|rewrite names; exact Ha|].
      rewrite names. intros b Hb. unfold at_, transit_names in *.
      destruct a as [|[|[|[|]]]]; simpl in Ha; try discriminate; injection Ha as <-;
      destruct b as [|[|[|[|]]]]; simpl in Hb; try discriminate; reflexivity.
    - congruence.
    - intros i ps Hi. rewrite <- (members_map acts_of (has a)). apply Hk. unfold at_. rewrite nth_error_map, Hi. reflexivity.
  Qed.

  Definition away (ps : list (bool * Z)) : Z := members (fun p => negb (is_home p)) ps.

  Lemma away_split : forall ps, (forall p, In p ps -> snd p = 0 \/ snd p = 1 \/ snd p = 2) ->
    members (fun p => has 1 (acts_of p)) ps + members (fun p => has 2 (acts_of p)) ps = away ps.
  Proof.
    induction ps as [|[act out] ps IH]; intros H; [reflexivity|]. unfold away in *. rewrite !members_cons.
    rewrite <- IH by (intros; apply H; right; auto).
    set (x1 := members (fun p => has 1 (acts_of p)) ps). set (x2 := members (fun p => has 2 (acts_of p)) ps). clearbody x1 x2.
    destruct (H (act, out) (or_introl eq_refl)) as [E|[E|E]]; cbn [snd] in E; subst out; destruct act; test_ifs; lia.
  Qed.

  Lemma active_eq : forall ps, (forall p, In p ps -> snd p = 0 \/ snd p = 1 \/ snd p = 2) ->
    members (fun p => has 0 (acts_of p)) ps = members home_active ps.
  Proof.
    intros ps H. apply members_ext. intros [act out] Hp. destruct (H _ Hp) as [E|[E|E]]; cbn [snd] in E; subst out; destruct act; reflexivity.
  Qed.

  Lemma active_away : forall ps, members home_active ps + away ps <= Z.of_nat (length ps).
  Proof.
    induction ps as [|[act out] ps IH]; [reflexivity|]. unfold away in *. rewrite !members_cons. simpl length.
    unfold home_active at 1, is_home at 1. cbn [fst snd]. set (x1 := members home_active ps) in *. set (x2 := members (fun p => negb (is_home p)) ps) in *. clearbody x1 x2.
    destruct (out =? 0), act; cbn [andb negb]; lia.
  Qed.

  Lemma transit_occupancy_ok :
    exists occ, transit_occupancy n s = Ok occ /\ length occ = length hs /\
      forall i ps, at_ hs i ps -> at_ occ i (n - away ps).
  Proof.
    destruct (@transit_doing 1 "HWH"%string eq_refl) as (hwh & H1 & L1 & K1).
    destruct (@transit_doing 2 "HOH"%string eq_refl) as (hoh & H2 & L2 & K2).
    unfold transit_occupancy. rewrite H1, H2. cbn [bind]. eexists. split; [reflexivity|]. split.
    - rewrite map_length, map2_length. lia.
    - intros i ps Hi. unfold at_. rewrite nth_error_map, map2_nth.
      rewrite (K1 _ _ Hi), (K2 _ _ Hi). simpl. f_equal. rewrite <- away_split; [lia|]. intros p Hp. eapply dom; eauto.
  Qed.

  Hypothesis fits : forall i ps, at_ hs i ps -> Z.of_nat (length ps) <= n.

  Lemma transit_active_ok :
    exists act, transit_active n s = Ok act /\ length act = length hs /\
      forall i ps, at_ hs i ps -> at_ act i (members home_active ps).
  Proof.
    destruct transit_occupancy_ok as (occ & H1 & L1 & K1).
    destruct (@transit_doing 0 "active"%string eq_refl) as (a & H2 & L2 & K2).
    unfold transit_active. rewrite H1. cbn [bind]. rewrite H2. cbn [bind]. eexists. split; [reflexivity|]. split.
    - rewrite map2_length. lia.
    - intros i ps Hi. unfold at_. rewrite map2_nth. rewrite (K1 _ _ Hi), (K2 _ _ Hi).
      rewrite active_eq by (intros p Hp; eapply dom; eauto). f_equal.
      pose proof (active_away ps). specialize (@fits _ _ Hi). lia.
  Qed.

  Lemma transit_thermal_ok :
    exists th, transit_thermal n s = Ok th /\ length th = length hs /\
      forall i ps, at_ hs i ps -> at_ th i (147 * members home_active ps + 84 * (n - away ps - members home_active ps)).
  Proof.
    destruct transit_active_ok as (act & H0 & L0 & K0).
    destruct (@transit_doing 1 "HWH"%string eq_refl) as (hwh & H1 & L1 & K1).
    destruct (@transit_doing 2 "HOH"%string eq_refl) as (hoh & H2 & L2 & K2).
    unfold transit_thermal. rewrite H0. cbn [bind]. rewrite H2. cbn [bind]. rewrite H1. cbn [bind]. eexists. split; [reflexivity|]. split.
    - rewrite map2_length, !map_length, !map2_length, !map_length. lia.
    - intros i ps Hi. unfold at_. rewrite map2_nth, !nth_error_map, !map2_nth, !nth_error_map.
      rewrite (K0 _ _ Hi), (K1 _ _ Hi), (K2 _ _ Hi). cbn [option_map]. f_equal.
      rewrite <- away_split by (intros p Hp; eapply dom; eauto). lia.
  Qed.

  Lemma transit_all :
    exists occ act th, transit_occupancy n s = Ok occ /\ transit_active n s = Ok act /\ transit_thermal n s = Ok th /\
      length occ = length hs /\ length act = length hs /\ length th = length hs /\
      forall i ps, at_ hs i ps -> exists o a t, at_ occ i o /\ at_ act i a /\ at_ th i t /\
        o = n - members (fun p => negb (snd p =? 0)) ps /\ a = members (fun p => (snd p =? 0) && fst p) ps /\
        0 <= a <= o /\ o <= n /\ t = 147 * a + 84 * (o - a).
  Proof.
    destruct transit_occupancy_ok as (occ & H1 & L1 & K1). destruct transit_active_ok as (act & H2 & L2 & K2).
    destruct transit_thermal_ok as (th & H3 & L3 & K3). exists occ, act, th. repeat (split; [assumption|]).
    intros i ps Hi. do 3 eexists. split; [apply K1; exact Hi|]. split; [apply K2; exact Hi|]. split; [apply K3; exact Hi|].
    split; [reflexivity|]. split; [reflexivity|]. pose proof (active_away ps). specialize (@fits _ _ Hi).
    pose proof (members_bound home_active ps). pose proof (members_bound (fun p => negb (is_home p)) ps). unfold away in *. lia.
  Qed.
End Transit.

(** ** CREST occupancy *)

Lemma crest_values : forall h a, 0 <= h -> 0 <= a <= 9 ->
  crest_occupancy (10 * h + a) = h /\ crest_active (10 * h + a) = Z.min h a /\
  crest_thermal (10 * h + a) = 147 * Z.min h a + 84 * (h - Z.min h a).
Proof.
  intros h a Hh Ha. unfold crest_thermal, crest_occupancy, crest_active.
  assert (E1 : (10 * h + a) / 10 = h) by (symmetry; apply Z.div_unique with a; lia).
  assert (E2 : (10 * h + a) mod 10 = a) by (symmetry; apply Z.mod_unique with h; lia).
  rewrite E1, E2. lia.
Qed.

Lemma crest_get_ok : forall (c : chain Z) ha, length ha = length (c_states c) ->
  (forall i x h a, at_ (c_states c) i x -> at_ ha i (h, a) -> at_ (c_labels c) x (10 * h + a)) ->
  forall f g, (forall i h a, at_ ha i (h, a) -> f (10 * h + a) = g h a) ->
  exists out, crest_get f c = Ok out /\ length out = length (c_states c) /\
    forall i h a, at_ ha i (h, a) -> at_ out i (g h a).
Proof.
  intros c ha Hl H f g Hfg. unfold crest_get.
  destruct (mapM_get (c_labels c) (c_states c)) as (ls & Hls & Hll & Hk).
  { intros x Hx. apply in_at in Hx as [i Hi]. pose proof (at_lt _ _ _ _ Hi) as Hlt. rewrite <- Hl in Hlt.
    destruct (lt_at _ _ _ Hlt) as [[h a] Hha]. specialize (H _ _ _ _ Hi Hha). eapply at_lt; eauto. }
  rewrite Hls. cbn [bind]. eexists. split; [reflexivity|]. rewrite map_length. split; [exact Hll|].
  intros i h a Hi. pose proof (at_lt _ _ _ _ Hi) as Hlt. rewrite Hl in Hlt. destruct (lt_at _ _ _ Hlt) as [x Hx].
  destruct (Hk _ _ Hx) as (lb & Hlb & Hlx). unfold at_. rewrite nth_error_map, Hlb. simpl. f_equal.
  rewrite (at_fun _ _ _ _ _ Hlx (H _ _ _ _ Hx Hi)). eapply Hfg; eauto.
Qed.

(** ** Ten-minute slots *)

Lemma start_step_slots : forall tod, 0 <= tod < 24 * 3600 * 1000000 ->
  let k := start_step_of (hour_of tod) (minute_of tod) in slots_since_4am tod k /\ 0 <= k < 144.
Proof.
  intros tod H k. unfold slots_since_4am, k, start_step_of, hour_of, minute_of, us_minute.
  set (h := tod / (60 * 60000000)).
  assert (Hh : 3600000000 * h <= tod < 3600000000 * (h + 1)).
  { unfold h. pose proof (Z.div_mod tod 3600000000 ltac:(lia)). pose proof (Z.mod_pos_bound tod 3600000000 ltac:(lia)).
    change (60 * 60000000) with 3600000000. lia. }
  set (q := tod / 60000000).
  assert (Hq : 60000000 * q <= tod < 60000000 * (q + 1)).
  { unfold q. pose proof (Z.div_mod tod 60000000 ltac:(lia)). pose proof (Z.mod_pos_bound tod 60000000 ltac:(lia)). lia. }
  assert (Hm : q mod 60 = q - 60 * h).
  { symmetry. apply Z.mod_unique with h; lia. }
  rewrite Hm. set (m := q - 60 * h) in *. assert (Hmb : 0 <= m < 60) by lia.
  assert (Hd : 10 * (m / 10) <= m < 10 * (m / 10 + 1)).
  { pose proof (Z.div_mod m 10 ltac:(lia)). pose proof (Z.mod_pos_bound m 10 ltac:(lia)). lia. }
  clearbody h q. set (d := m / 10) in *. clearbody d.
  split.
  - destruct (Z.leb_spec 4 h).
    + exists (tod - 14400000000). split; [lia|]. split; [|lia].
      replace (4 * 3600 * 1000000 + (tod - 14400000000)) with tod by lia. apply Z.mod_small. lia.
    + exists (tod + 72000000000). split; [lia|]. split; [|lia].
      symmetry. apply Z.mod_unique with 1; lia.
  - destruct (Z.leb_spec 4 h); lia.
Qed.

Lemma slots_unique : forall tod k k', slots_since_4am tod k -> slots_since_4am tod k' -> k = k'.
Proof.
  intros tod k k' (a & Ha & Ea & Ka) (b & Hb & Eb & Kb).
  assert (a = b).
  { assert (E : (4 * 3600 * 1000000 + a) mod (24 * 3600 * 1000000) = (4 * 3600 * 1000000 + b) mod (24 * 3600 * 1000000)) by congruence.
    pose proof (Z.div_mod (4 * 3600 * 1000000 + a) (24 * 3600 * 1000000) ltac:(lia)).
    pose proof (Z.div_mod (4 * 3600 * 1000000 + b) (24 * 3600 * 1000000) ltac:(lia)). rewrite E in *.
    assert ((4 * 3600 * 1000000 + a) / (24 * 3600 * 1000000) = (4 * 3600 * 1000000 + b) / (24 * 3600 * 1000000)) by lia. lia. }
  subst b. lia.
Qed.

Lemma slots_advance : forall tod, 0 <= tod < 24 * 3600 * 1000000 ->
  let next := (tod + 10 * us_minute) mod (24 * 3600 * 1000000) in
  start_step_of (hour_of next) (minute_of next) = (start_step_of (hour_of tod) (minute_of tod) + 1) mod 144.
Proof.
  intros tod H next. destruct (start_step_slots H) as [(a & Ha & Ea & Ka) Hk].
  set (k := start_step_of (hour_of tod) (minute_of tod)) in *. clearbody k.
  assert (Hn : 0 <= next < 24 * 3600 * 1000000) by (apply Z.mod_pos_bound; lia).
  destruct (start_step_slots Hn) as [Hs Hkn]. set (k' := start_step_of (hour_of next) (minute_of next)) in *. clearbody k'.
  apply (slots_unique Hs). unfold slots_since_4am.
  destruct (Z.eq_dec k 143) as [->|Hne].
  - exists (a + 10 * us_minute - 24 * 3600 * 1000000). unfold us_minute in *. split; [lia|]. split; [|cbn; lia].
    unfold next. rewrite <- Ea. rewrite Z.add_mod_idemp_l by lia.
    replace (4 * 3600 * 1000000 + (a + 10 * 60000000 - 24 * 3600 * 1000000))
      with (4 * 3600 * 1000000 + a + 10 * 60000000 + (-1) * (24 * 3600 * 1000000)) by lia.
    rewrite Z.mod_add by lia. reflexivity.
  - exists (a + 10 * us_minute). unfold us_minute in *. rewrite (Z.mod_small (k + 1)) by lia. split; [lia|]. split; [|lia].
    unfold next. rewrite <- Ea. rewrite Z.add_mod_idemp_l by lia. f_equal. lia.
Qed.

(** ** Relabelling *)

Section Relabel.
  Variables (L : Type) (cmp : L -> L -> comparison).
  Hypothesis ord : total_order cmp.


  Notation only_at := sole_position (only parsing).

  Lemma position_found : forall new lab p, only_at new lab p -> position_in cmp new lab = Z.of_nat p.
  Proof.
    intros new lab p [Hp Hu]. unfold position_in. rewrite (@where_true_single _ (is_eq cmp lab) new p lab); auto.
    - apply (is_eq_iff ord). reflexivity.
    - intros q y Hq Hy. apply (is_eq_iff ord) in Hy. subst y. auto.
  Qed.

  Lemma where_single_sole : forall new lab p, where_true (map (is_eq cmp lab) new) = [p] -> sole_position new lab p.
  Proof.
    intros new lab p E.
    assert (Hin : forall q, In q (where_true (map (is_eq cmp lab) new)) <-> at_ new q lab).
    { intros q. rewrite where_true_in, nth_error_map. unfold at_. split.
      - destruct (nth_error new q) as [y|]; [|discriminate]. simpl. intro Hq. injection Hq as Hq. apply (is_eq_iff ord) in Hq. congruence.
      - intros ->. simpl. f_equal. apply (is_eq_iff ord). reflexivity. }
    rewrite E in Hin. split; [apply Hin; left; auto|]. intros q Hq. apply Hin in Hq as [Hq|[]]. auto.
  Qed.

  Lemma position_lost : forall new lab, (forall p, ~ only_at new lab p) -> position_in cmp new lab = -1.
  Proof.
    intros new lab H. unfold position_in. destruct (where_true (map (is_eq cmp lab) new)) as [|p [|q t]] eqn:E; auto.
    exfalso. apply (H p).
    assert (Hin : forall q, In q (where_true (map (is_eq cmp lab) new)) <-> at_ new q lab).
    { intros q. rewrite where_true_in, nth_error_map. unfold at_. split.
      - destruct (nth_error new q) as [y|]; [|discriminate]. simpl. intro Hq. injection Hq as Hq. apply (is_eq_iff ord) in Hq. congruence.
      - intros ->. simpl. f_equal. apply (is_eq_iff ord). reflexivity. }
    rewrite E in Hin. split; [apply Hin; left; auto|]. intros q Hq. apply Hin in Hq as [Hq|[]]. auto.
  Qed.

  Lemma relabel_ok : forall lost old states new, (forall i s, at_ states i s -> (s < length old)%nat) ->
    exists out, relabel cmp lost old states new = Ok out /\ length out = length states /\
    forall i s lab, at_ states i s -> at_ old s lab ->
      (forall p, only_at new lab p -> at_ out i (Z.of_nat p)) /\
      ((forall p, ~ only_at new lab p) -> at_ out i lost).
  Proof.
    intros lost old states new H. unfold relabel.
    destruct (mapM_get old states) as (labs & Hl & Hll & Hlk).
    { intros s Hs. apply in_at in Hs as [i Hi]. eapply H; eauto. }
    rewrite Hl. cbn [bind]. set (u := uniq cmp labs).
    set (pos' := map (fun p => if p =? -1 then lost else p) (map (position_in cmp new) u)).
    assert (Hget : forall lab, In lab labs -> get_at pos' (index_in cmp lab u) =
      Ok (let p := position_in cmp new lab in if p =? -1 then lost else p)).
    { intros lab Hlab. apply get_at_ok. unfold at_, pos'. rewrite !nth_error_map.
      rewrite (index_in_at ord) by (unfold u; apply uniq_in; auto). reflexivity. }
    destruct (mapM_total _ _ (fun lab => get_at pos' (index_in cmp lab u)) labs) as [out Hout].
    { intros lab Hlab. rewrite Hget by exact Hlab. eauto. }
    exists out. split; [exact Hout|]. apply mapM_ok in Hout as [Hol Hok]. split; [congruence|].
    intros i s lab Hi Hs. destruct (Hlk _ _ Hi) as (lab' & Hlab' & Hs'). rewrite (at_fun _ _ _ _ _ Hs' Hs) in Hlab'.
    destruct (Hok _ _ Hlab') as (y & Hy & Hg). rewrite Hget in Hg by (eapply at_in; eauto). injection Hg as Hg. split.
    - intros p Hp. rewrite (position_found Hp) in Hg. unfold at_. rewrite Hy. f_equal. cbn zeta in Hg.
      destruct (Z.eqb_spec (Z.of_nat p) (-1)); [lia|auto].
    - intros Hp. rewrite (position_lost Hp) in Hg. unfold at_. rewrite Hy. f_equal. cbn zeta in Hg. rewrite Z.eqb_refl in Hg. auto.
  Qed.

  Lemma assign_new_labels_ok : forall (c : chain L) new, (forall i s, at_ (c_states c) i s -> (s < length (c_labels c))%nat) ->
    exists c', assign_new_labels cmp c new = Ok c' /\ c_labels c' = new /\ length (c_states c') = length (c_states c) /\
      c_iter c' = c_iter c /\ c_ticks c' = c_ticks c /\ c_n c' = c_n c /\
      forall i s lab, at_ (c_states c) i s -> at_ (c_labels c) s lab ->
        (forall p, only_at new lab p -> at_ (c_states c') i p) /\
        ((forall p, ~ only_at new lab p) -> at_ (c_states c') i 0%nat).
  Proof.
    intros c new H. destruct (@relabel_ok 0 (c_labels c) (c_states c) new H) as (out & Ho & Hl & Hk).
    unfold assign_new_labels. rewrite Ho. cbn [bind]. eexists. split; [reflexivity|]. cbn [c_labels c_states c_iter c_ticks c_n].
    rewrite map_length. repeat (split; [first [reflexivity|exact Hl]|]).
    intros i s lab Hi Hs. destruct (Hk _ _ _ Hi Hs) as [H1 H2]. unfold at_ in *. split; intros.
    - rewrite nth_error_map, (H1 _ H0). simpl. f_equal. lia.
    - rewrite nth_error_map, (H2 H0). reflexivity.
  Qed.
End Relabel.

Lemma Z_order : total_order Z.compare.
Proof.
  repeat split; intros.
  - apply Z.compare_eq_iff; auto.
  - subst; apply Z.compare_refl.
  - apply Z.compare_antisym.
  - rewrite Z.compare_lt_iff in *. lia.
Qed.

Lemma sp_new_day_ok : forall p new s first rest, new = first :: rest -> Z.of_nat (length new) = n_states p ->
  (forall i x, at_ (sp_states s) i x -> (Z.to_nat x < length (sp_labels s))%nat) ->
  exists s', sp_new_day p new s = Ok s' /\ sp_labels s' = new /\ length (sp_states s') = length (sp_states s) /\
    sp_time s' = sp_time s /\ sp_ticks s' = sp_ticks s /\ sp_activities s' = sp_activities s /\
    forall i x lab, at_ (sp_states s) i x -> at_ (sp_labels s) (Z.to_nat x) lab ->
      (forall q, sole_position new lab q -> at_ (sp_states s') i (Z.of_nat q)) /\
      ((forall q, ~ sole_position new lab q) -> at_ (sp_states s') i first).
Proof.
  intros p new s first rest En Hn Hs. unfold sp_new_day. rewrite En. cbn iota beta. rewrite <- En.
  destruct (@relabel_ok Z Z.compare Z_order first (sp_labels s) (map Z.to_nat (sp_states s)) new) as (out & Ho & Hl & Hk).
  { intros i y Hi. unfold at_ in Hi. rewrite nth_error_map in Hi. destruct (nth_error (sp_states s) i) as [x|] eqn:E; [|discriminate].
    injection Hi as <-. eapply Hs; eauto. }
  rewrite Ho. cbn [bind]. rewrite Hn, Z.eqb_refl. cbn [negb]. eexists. split; [reflexivity|].
  cbn [sp_labels sp_states sp_time sp_ticks sp_activities]. rewrite map_length in Hl. repeat (split; [first [reflexivity|exact Hl]|]).
  intros i x lab Hi Hlab. apply (Hk i (Z.to_nat x) lab); auto. unfold at_. rewrite nth_error_map, Hi. reflexivity.
Qed.

(** ** Starting time of a time-aware sparse simulator *)

Section StartTime.
  Variable new_day : spsim -> result spsim.
  Hypothesis keeps : forall s s', new_day s = Ok s' -> sp_time s' = sp_time s /\ sp_ticks s' = sp_ticks s.

  Lemma sp_step_time : forall inc fuel s u s', sp_step true inc new_day fuel s u = Ok s' ->
    sp_time s' = sp_time s + inc /\ sp_ticks s' = sp_ticks s + 1.
  Proof.
    intros inc fuel s u s' H. unfold sp_step in H. cbn zeta iota in H.
    set (s0 := mkSp _ _ _ _ _ (sp_time s + inc)) in H.
    destruct (if sp_ticks s0 mod 144 =? 0 then new_day s0 else Ok s0) as [s1|] eqn:E; [|discriminate]. cbn [bind] in H.
    assert (Hs1 : sp_time s1 = sp_time s0 /\ sp_ticks s1 = sp_ticks s0).
    { destruct (sp_ticks s0 mod 144 =? 0); [apply keeps; exact E|]. injection E as <-. auto. }
    destruct (sparse_mc _ _ _ _ _) as [st|]; [|discriminate]. cbn [bind] in H. injection H as <-. cbn [sp_time sp_ticks].
    destruct Hs1 as [-> ->]. subst s0. cbn [sp_time sp_ticks]. lia.
  Qed.

  Lemma sp_run_time : forall inc fuel hist s s', sp_run true inc new_day fuel hist s = Ok s' ->
    sp_time s' = sp_time s + inc * Z.of_nat (length hist) /\ sp_ticks s' = sp_ticks s + Z.of_nat (length hist).
  Proof.
    induction hist as [|u hist IH]; intros s s' H.
    - cbn [sp_run] in H. injection H as <-. cbn [length]. lia.
    - cbn [sp_run] in H. destruct (sp_step true inc new_day fuel s u) as [s1|] eqn:E; [|discriminate]. cbn [bind] in H.
      apply sp_step_time in E as [E1 E2]. apply IH in H as [H1 H2]. cbn [length]. rewrite Nat2Z.inj_succ. rewrite H1, H2, E1, E2. lia.
  Qed.

  Lemma sp_start_time : forall start fuel hist s s', sp_start start new_day fuel hist s = Ok s' ->
    exists k, slots_since_4am (start mod (24 * 3600 * 1000000)) k /\ sp_ticks s' = k /\
      sp_time s' = start + k * 600000000.
  Proof.
    intros start fuel hist s s' H. unfold sp_start in H. change (24 * 3600 * 1000000) with 86400000000.
    set (tod := start mod 86400000000) in *.
    assert (Hb : 0 <= tod < 24 * 3600 * 1000000) by (apply Z.mod_pos_bound; lia).
    destruct (start_step_slots Hb) as [Hk _]. set (k := start_step_of (hour_of tod) (minute_of tod)) in *.
    destruct (Z.eqb_spec (Z.of_nat (length hist)) k) as [Hl|]; [|discriminate]. cbn [negb] in H.
    destruct (new_day _) as [s1|] eqn:E; [|discriminate]. cbn [bind] in H.
    apply keeps in E as [E1 _]. cbn [sp_time] in E1.
    apply sp_run_time in H as [H1 H2]. cbn [sp_time sp_ticks] in H1, H2. exists k. split; [exact Hk|]. unfold us_minute in H1. lia.
  Qed.
End StartTime.
