(** * Proofs about the older appliance simulator. *)

From Coq Require Import String List ZArith QArith Qfield Qround Bool Arith Lia Lqa.
From Coq Require Import ZifyBool ZifyNat.
From Verif Require Import Prelude PreludeFacts SpecBase SpecBaseFacts Sampling_Model Appliance_Model Appliance_Spec Appliance_Proofs Matrix_Proofs Light_Spec Light_Proofs.
From Verif Require Import Wash_Model Wash_Spec.
Import ListNotations.

Open Scope Q_scope.

(** ** Assignments *)

Lemma assign_ok : forall f idx s s', assign f idx s = Ok s' ->
  z_apps s' = z_apps s /\ z_own s' = z_own s /\
  (forall h j, In (h, j) idx -> exists c, f (h, j) = Ok c /\ at2 (z_cells s') h j c) /\
  (forall h j x, ~ In (h, j) idx -> (at2 (z_cells s') h j x <-> at2 (z_cells s) h j x)) /\
  (forall n c, shaped n c (z_cells s) -> shaped n c (z_cells s')).
Proof.
  intros f idx s s' H. unfold assign in H.
  destruct (mapM (fun k => bind (f k) (fun c => Ok (k, c))) idx) as [kvs|] eqn:E; simpl in H; [|discriminate].
  destruct (mput kvs (z_cells s)) as [m|] eqn:Em; simpl in H; [|discriminate]. injection H as <-. cbn [z_apps z_own z_cells with_cells].
  destruct (mput_ok _ _ _ _ Em) as (M1 & M2 & M3). destruct (mapM_ok _ _ _ _ _ E) as [L K].
  assert (In1 : forall k v, In (k, v) kvs -> In k idx /\ f k = Ok v).
  { intros k v Hin. apply in_at in Hin. destruct Hin as [i Hi]. destruct (lt_at _ idx i) as [k' Hk]; [apply at_lt in Hi; lia|].
    destruct (K i k' Hk) as (y & Y1 & Y2). pose proof (at_fun _ _ _ _ _ Hi Y1) as <-. destruct (f k') as [c|] eqn:Ef; simpl in Y2; [|discriminate].
    injection Y2 as <- <-. split; [eapply at_in; exact Hk|exact Ef]. }
  assert (In2 : forall k, In k idx -> exists v, In (k, v) kvs).
  { intros k Hin. apply in_at in Hin. destruct Hin as [i Hi]. destruct (K i k Hi) as (y & Y1 & Y2). destruct (f k) as [c|]; simpl in Y2; [|discriminate].
    injection Y2 as <-. exists c. eapply nth_error_In. exact Y1. }
  split; [reflexivity|]. split; [reflexivity|]. split; [|split; [|exact M3]].
  - intros h j Hin. destruct (In2 _ Hin) as [v Hv]. destruct (M1 h j (ex_intro _ v Hv)) as (v' & H1 & H2). exists v'. split; [apply (In1 _ _ H1)|exact H2].
  - intros h j x N. apply M2. intro C. apply in_map_iff in C. destruct C as ([k v] & Ek & Hk). simpl in Ek. subst k. apply N. apply (In1 _ _ Hk).
Qed.

Lemma assign_total : forall f idx s n k, shaped n k (z_cells s) -> (forall h j, In (h, j) idx -> (h < n)%nat /\ (j < k)%nat) ->
  (forall p, In p idx -> exists c, f p = Ok c) -> exists s', assign f idx s = Ok s'.
Proof.
  intros f idx s n k Hs Hin Hf. unfold assign.
  assert (M : exists kvs, mapM (fun k => bind (f k) (fun c => Ok (k, c))) idx = Ok kvs).
  { apply mapM_total. intros p Hp. destruct (Hf p Hp) as [c ->]. cbn [bind]. eauto. }
  destruct M as [kvs E]. rewrite E. cbn [bind]. destruct (mput_total _ kvs (z_cells s) n k Hs) as [m Em].
  - intros h j v Hv. apply Hin. apply in_at in Hv. destruct Hv as [i Hi]. destruct (mapM_ok _ _ _ _ _ E) as [L K].
    destruct (lt_at _ idx i) as [k' Hk]; [apply at_lt in Hi; lia|]. destruct (K i k' Hk) as (y & Y1 & Y2). pose proof (at_fun _ _ _ _ _ Hi Y1) as <-.
    destruct (f k'); simpl in Y2; [|discriminate]. injection Y2 as <- <-. eapply at_in; exact Hk.
  - rewrite Em. cbn [bind]. eauto.
Qed.

(** ** Labels *)

Lemma last_place_in : forall labels name i found, In name labels -> exists p, last_place name labels i found = (i + p)%nat /\ at_ labels p name.
Proof.
  induction labels as [|l t IH]; intros name i found H; [destruct H|]. simpl.
  destruct (in_dec string_dec name t) as [Ht|Ht].
  - destruct (IH name (S i) (if String.eqb name l then i else found) Ht) as (p & E & Hp). exists (S p). split; [lia|exact Hp].
  - destruct H as [->|H]; [|tauto]. rewrite String.eqb_refl. exists 0%nat. split; [|reflexivity].
    rewrite Nat.add_0_r. clear IH. assert (G : forall t, ~ In name t -> forall i f, last_place name t i f = f).
    { clear. induction t as [|l t IH]; intros N i f; [reflexivity|]. simpl. destruct (String.eqb_spec name l) as [E|E]; [subst; exfalso; apply N; left; reflexivity|].
      apply IH. intro C. apply N. right. exact C. }
    apply G. exact Ht.
Qed.

Lemma is_water_in : forall w a, is_water w a = true <-> In (wa_name a) (us_labels w).
Proof.
  intros w a. unfold is_water. rewrite existsb_exists. split.
  - intros (x & Hx & E). apply String.eqb_eq in E. congruence.
  - intro H. exists (wa_name a). split; [exact H|apply String.eqb_refl].
Qed.

Lemma water_cell_started : forall w s u h j a c, at_ (z_apps s) j a -> In (wa_name a) (us_labels w) -> water_cell w s u (h, j) = Ok c -> started w a (u h j) c.
Proof.
  intros w s u h j a c Ha Hw H. unfold water_cell in H. cbn [fst snd] in H. apply vget_ok in Ha. rewrite Ha in H. cbn [bind] in H.
  destruct (last_place_in _ _ 0 0 Hw) as (p & Ep & Hp). rewrite Ep in H. cbn [Nat.add] in H.
  destruct (vget (us_cdfs w) p) as [cdf|] eqn:Ec; simpl in H; [|discriminate]. apply vget_ok in Ec.
  destruct (mc_one cdf (u h j)) as [i|] eqn:Ei; simpl in H; [|discriminate]. apply mc_one_picks in Ei.
  destruct (vget (us_litres w) i) as [v|] eqn:Ev; simpl in H; [|discriminate]. apply vget_ok in Ev.
  destruct (Qeq_bool (wa_power a) 0) eqn:E0; [discriminate|]. injection H as <-. apply Qeq_bool_neq in E0.
  split; [apply trunc_int_part|]. cbn [c_left]. split; [tauto|]. intros _. exists p, cdf, i, v. repeat (split; [assumption|]). field. exact E0.
Qed.

Lemma mean_cell_started : forall w s u h j a c, at_ (z_apps s) j a -> ~ In (wa_name a) (us_labels w) -> mean_cell s (h, j) = Ok c -> started w a (u h j) c.
Proof.
  intros w s u h j a c Ha Hw H. unfold mean_cell in H. cbn [fst snd] in H. apply vget_ok in Ha. rewrite Ha in H. cbn [bind] in H. injection H as <-.
  split; [apply trunc_int_part|]. cbn [c_left]. split; [reflexivity|tauto].
Qed.

(** ** Reading *)

Lemma old_water_at : forall w s h j a own c, at_ (z_apps s) j a -> at2 (z_own s) h j own -> at2 (z_cells s) h j c ->
  at2 (old_water w s) h j (cell_water w a own (c_left c)).
Proof.
  intros w s h j a own c Ha (r1 & R1 & O) (r2 & R2 & C). unfold old_water. eexists. split.
  - apply at_map2. exists r1, r2. split; [exact R1|]. split; [exact R2|reflexivity].
  - apply at_map2. exists a, (own, c). split; [exact Ha|]. split; [|reflexivity]. unfold at_. rewrite Parse_GroupProofs.combine_nth_error.
    unfold at_ in O, C. rewrite O, C. reflexivity.
Qed.

Lemma old_tick_at : forall s h j c, at2 (z_cells s) h j c -> at2 (z_cells (old_tick s)) h j (Cell (tick_left (c_left c)) (tick_refresh (c_refresh c))).
Proof. intros s h j c H. apply at2_map. exists c. split; [exact H|reflexivity]. Qed.

Fixpoint water_run (w : usage) (a : wapp) (own : bool) (d : Q) (n : nat) : Q :=
  match n with O => 0 | S m => cell_water w a own d + water_run w a own (tick_left d) m end.

Lemma poured_run : forall w h j n s q a own c, at_ (z_apps s) j a -> at2 (z_own s) h j own -> at2 (z_cells s) h j c ->
  (poured w h j n s q -> q = water_run w a own (c_left c) n) /\ poured w h j n s (water_run w a own (c_left c) n).
Proof.
  intros w h j n. induction n as [|n IH]; intros s q a own c Ha Ho Hc.
  - split; [intro H; inversion H; reflexivity|constructor].
  - assert (E : z_apps (old_tick s) = z_apps s /\ z_own (old_tick s) = z_own s) by (split; reflexivity). destruct E as [E1 E2]. split.
    + intro H. inversion H as [|n' s' x q' Hx Hq]; subst. pose proof (at2_fun _ _ _ _ _ _ Hx (old_water_at w s h j a own c Ha Ho Hc)) as ->.
      destruct (IH (old_tick s) q' a own _ Ha Ho (old_tick_at _ _ _ _ Hc)) as [K _]. rewrite (K Hq). reflexivity.
    + cbn [water_run]. constructor; [exact (old_water_at w s h j a own c Ha Ho Hc)|].
      destruct (IH (old_tick s) 0 a own _ Ha Ho (old_tick_at _ _ _ _ Hc)) as [_ K]. exact K.
Qed.

Lemma water_run_off : forall w a own n d, d <= 0 -> wa_standby a == 0 -> water_run w a own d n == 0.
Proof.
  intros w a own n. induction n as [|n IH]; intros d Hd Hs; [reflexivity|]. cbn [water_run]. unfold tick_left.
  assert (E : Qltb 0 d = false) by (destruct (Qltb 0 d) eqn:E; [apply Qltb_lt in E; lra|reflexivity]). rewrite E, (IH d Hd Hs).
  unfold cell_water. destruct (is_water w a); [|reflexivity]. rewrite E. cbn [andb b2q].
  assert (E1 : Qle_bool 1 d = false) by (destruct (Qle_bool 1 d) eqn:E1; [apply Qle_bool_iff in E1; lra|reflexivity]). rewrite E1. cbn [b2q].
  rewrite Hs. ring.
Qed.

Lemma water_run_sum : forall w a own n d, In (wa_name a) (us_labels w) -> wa_standby a == 0 -> 0 <= d ->
  (d <= inject_Z (Z.of_nat n) -> water_run w a own d n == d * wa_power a) /\
  (inject_Z (Z.of_nat n) <= d -> water_run w a own d n == inject_Z (Z.of_nat n) * wa_power a).
Proof.
  intros w a own n. induction n as [|n IH]; intros d Hw Hs Hd.
  - cbn [water_run Z.of_nat]. change (inject_Z 0) with 0. split; intro H; [|ring]. transitivity (0 * wa_power a); [ring|]. apply Qmult_comp; [lra|reflexivity].
  - assert (Es : inject_Z (Z.of_nat (S n)) == inject_Z (Z.of_nat n) + 1). { rewrite Nat2Z.inj_succ, <- Z.add_1_r, inject_Z_plus. reflexivity. }
    rewrite Es. cbn [water_run]. unfold cell_water at 1 2. apply is_water_in in Hw. rewrite Hw. apply is_water_in in Hw.
    assert (N0 : 0 <= inject_Z (Z.of_nat n)) by (change 0 with (inject_Z 0); rewrite <- Zle_Qle; lia).
    destruct (Qlt_le_dec d 1) as [L|L].
    + assert (E1 : Qle_bool 1 d = false) by (destruct (Qle_bool 1 d) eqn:E1; [apply Qle_bool_iff in E1; lra|reflexivity]).
      assert (E2 : Qltb d 1 = true) by (apply Qltb_lt; exact L). rewrite E1, E2.
      destruct (Qlt_le_dec 0 d) as [P|P].
      * assert (E3 : Qltb 0 d = true) by (apply Qltb_lt; exact P).
        assert (E4 : Qle_bool d 0 = false) by (destruct (Qle_bool d 0) eqn:E4; [apply Qle_bool_iff in E4; lra|reflexivity]).
        unfold tick_left. rewrite E3, E4. cbn [andb b2q]. rewrite (water_run_off w a own n (d - 1) ltac:(lra) Hs).
        split; intro H; [ring|]. assert (Z : inject_Z (Z.of_nat n) == 0 /\ d == 1) by lra. lra.
      * assert (E3 : Qltb 0 d = false) by (destruct (Qltb 0 d) eqn:E3; [apply Qltb_lt in E3; lra|reflexivity]).
        unfold tick_left. rewrite E3. cbn [andb b2q]. rewrite (water_run_off w a own n d P Hs). assert (D0 : d == 0) by lra.
        split; intro H; [rewrite Hs|lra]. assert (D1 : d * wa_power a == 0) by (transitivity (0 * wa_power a); [apply Qmult_comp; [exact D0|reflexivity]|ring]). rewrite D1. ring.
    + assert (E1 : Qle_bool 1 d = true) by (apply Qle_bool_iff; exact L).
      assert (E2 : Qltb d 1 = false) by (destruct (Qltb d 1) eqn:E2; [apply Qltb_lt in E2; lra|reflexivity]).
      assert (E3 : Qltb 0 d = true) by (apply Qltb_lt; lra). rewrite E1, E2. rewrite andb_false_r. unfold tick_left. rewrite E3. cbn [b2q].
      destruct (IH (d - 1) Hw Hs ltac:(lra)) as [I1 I2]. split; intro H.
      * rewrite I1 by lra. rewrite Hs. ring.
      * rewrite I2 by lra. rewrite Hs. ring.
Qed.

(** ** The programme *)

Ltac settle t :=
  repeat match goal with
  | |- context [Qltb ?lo t] => first
      [ replace (Qltb lo t) with true by (symmetry; apply Qltb_lt; lra)
      | replace (Qltb lo t) with false by (symmetry; destruct (Qltb lo t) eqn:?; [exfalso; match goal with E : Qltb lo t = true |- _ => apply Qltb_lt in E end; lra|reflexivity]) ]
  | |- context [Qle_bool t ?hi] => first
      [ replace (Qle_bool t hi) with true by (symmetry; apply Qle_bool_iff; lra)
      | replace (Qle_bool t hi) with false by (symmetry; destruct (Qle_bool t hi) eqn:?; [exfalso; match goal with E : Qle_bool t hi = true |- _ => apply Qle_bool_iff in E end; lra|reflexivity]) ]
  end; cbn [andb fold_left].

Lemma wash_phase_programme : forall t, programme t (wash_phase t).
Proof.
  intro t.
  assert (R : rinsing t <-> (92 < t /\ t <= 94) \/ (105 < t /\ t <= 107) \/ (118 < t /\ t <= 120) \/ (131 < t /\ t <= 133)).
  { split.
    - intros (k & Hk & H1 & H2). destruct k as [|[|[|[|k]]]]; [left|right; left|right; right; left|right; right; right|lia]; simpl in H1, H2; unfold inject_Z in H1, H2; lra.
    - intros [H|[H|[H|H]]]; [exists 0%nat|exists 1%nat|exists 2%nat|exists 3%nat]; (split; [lia|]); simpl; unfold inject_Z; lra. }
  unfold programme, heating_up, fast_spin, drying. rewrite R. clear R.
  assert (C : t <= 8 \/ (8 < t /\ t <= 29) \/ (29 < t /\ t <= 81) \/ (81 < t /\ t <= 92) \/ (92 < t /\ t <= 94) \/ (94 < t /\ t <= 105) \/
    (105 < t /\ t <= 107) \/ (107 < t /\ t <= 118) \/ (118 < t /\ t <= 120) \/ (120 < t /\ t <= 131) \/ (131 < t /\ t <= 133) \/
    (133 < t /\ t <= 138) \/ (138 < t /\ t <= 198) \/ 198 < t).
  { repeat match goal with |- _ \/ _ => first [ match goal with |- (?lo < t /\ t <= ?hi) \/ _ => destruct (Qlt_le_dec hi t); [right|left; lra] | |- t <= ?hi \/ _ => destruct (Qlt_le_dec hi t); [right|left; lra] end ] end. lra. }
  unfold wash_phase, wash_table. cbn [fold_left].
  repeat match goal with H : _ \/ _ |- _ => destruct H as [H|H] end; settle t; repeat split; intros; try reflexivity; exfalso; lra.
Qed.
