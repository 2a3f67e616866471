(** * Proofs about heating. *)

From Coq Require Import String List QArith Qfield Bool Lia Lqa.
From Verif Require Import Prelude PreludeFacts SpecBase SpecBaseFacts Heat_Model Heat_Spec.
Import ListNotations.

Open Scope Q_scope.

(** ** Arithmetic *)

Lemma val_fun : forall a q r, val a q -> val a r -> q == r.
Proof. intros a q r (v & -> & E) (w & [= <-] & F). rewrite <- E, <- F. reflexivity. Qed.

Lemma val_eq : forall a q r, val a q -> q == r -> val a r.
Proof. intros a q r (v & -> & E) F. exists v. split; [reflexivity|]. now rewrite E. Qed.

Lemma val_some : forall q r, q == r -> val (Some q) r.
Proof. intros q r E. now exists q. Qed.

Lemma val_add : forall a b x y, val a x -> val b y -> val (nadd a b) (x + y).
Proof. intros a b x y (v & -> & E) (w & -> & F). apply val_some. now rewrite E, F. Qed.
Lemma val_sub : forall a b x y, val a x -> val b y -> val (nsub a b) (x - y).
Proof. intros a b x y (v & -> & E) (w & -> & F). apply val_some. now rewrite E, F. Qed.
Lemma val_mul : forall a b x y, val a x -> val b y -> val (nmul a b) (x * y).
Proof. intros a b x y (v & -> & E) (w & -> & F). apply val_some. now rewrite E, F. Qed.
Lemma val_opp : forall a x, val a x -> val (nopp a) (- x).
Proof. intros a x (v & -> & E). apply val_some. now rewrite E. Qed.
Lemma val_div : forall a b x y, val a x -> val b y -> ~ y == 0 -> val (ndiv a b) (x / y).
Proof.
  intros a b x y (v & -> & E) (w & -> & F) H. unfold ndiv. destruct (Qeq_bool w 0) eqn:Ez.
  - exfalso. apply Qeq_bool_iff in Ez. apply H. now rewrite <- F.
  - apply val_some. now rewrite E, F.
Qed.

Lemma nlt_val : forall a b x y, val a x -> val b y -> (nlt a b = true <-> x < y).
Proof.
  intros a b x y (v & -> & E) (w & -> & F). unfold nlt. split; intro H.
  - apply Qltb_lt in H. now rewrite <- E, <- F.
  - apply Qltb_lt. now rewrite E, F.
Qed.
Lemma nle_val : forall a b x y, val a x -> val b y -> (nle a b = true <-> x <= y).
Proof.
  intros a b x y (v & -> & E) (w & -> & F). unfold nle. rewrite Qle_bool_iff, E, F. reflexivity.
Qed.

Lemma qmin_spec : forall a b, is_min a b (qmin a b).
Proof.
  intros a b. unfold qmin, is_min. destruct (Qle_bool a b) eqn:E.
  - apply Qle_bool_iff in E. repeat split; try lra.
  - assert (b < a). { apply Qnot_le_lt. intro H. apply Qle_bool_iff in H. congruence. } repeat split; try lra.
Qed.
Lemma qmax_spec : forall a b, is_max a b (qmax a b).
Proof.
  intros a b. unfold qmax, is_max. destruct (Qle_bool a b) eqn:E.
  - apply Qle_bool_iff in E. repeat split; try lra.
  - assert (b < a). { apply Qnot_le_lt. intro H. apply Qle_bool_iff in H. congruence. } repeat split; try lra.
Qed.

(** Clip to [0, hi]. *)
Lemma clip_val : forall a c x hi, val a x -> val c hi -> exists y, val (nclip a (Some 0) c) y /\
  (hi < 0 -> y == hi) /\ (0 <= hi -> limited x hi y /\ 0 <= y <= hi).
Proof.
  intros a c x hi (v & -> & E) (w & -> & F). exists (qmin (qmax v 0) w). split; [now apply val_some|].
  destruct (qmax_spec v 0) as (A1 & A2 & A3). destruct (qmin_spec (qmax v 0) w) as (B1 & B2 & B3).
  split; [intro; destruct B3; lra|]. intro Hh. split; [|split; [destruct B3; lra|lra]].
  unfold limited. split; [|split]; intros; destruct A3, B3; lra.
Qed.

(** ** Building *)

Lemma building_flows : forall dt b c t w o h d v q, val dt q -> house_is b c h -> house_ok h -> temps_are t v -> drive_is w o d ->
  exists v', temps_are (building_step dt b c t w o) v' /\ heat_flows q h d v v'.
Proof.
  intros dt b c t w o h d v q Hq (B1 & B2 & B3 & B4 & B5 & B6 & B7 & B8 & B9 & B10) (P1 & P2 & P3 & P4 & _)
    (T1 & T2 & T3 & T4 & T5') (D1 & D2 & D3 & D4 & D5 & D6 & D7 & D8).
  assert (N1 : ~ cb h == 0) by lra. assert (N2 : ~ ci h == 0) by lra. assert (N3 : ~ ce h == 0) by lra. assert (N4 : ~ cc h == 0) by lra.
  eexists (T5 _ _ _ _ _). unfold temps_are, building_step. cbn [T_b T_i T_em T_cyl T_cold t_b t_i t_e t_c t_w]. split.
  - split; [|split; [|split; [|split]]].
    + repeat first [eassumption | apply val_add | apply val_mul | apply val_opp | apply val_sub | apply (val_div _ _ _ _ Hq B1 N1)].
    + repeat first [eassumption | apply val_add | apply val_mul | apply val_opp | apply val_sub | apply (val_div _ _ _ _ Hq B2 N2)].
    + repeat first [eassumption | apply val_add | apply val_mul | apply val_opp | apply val_sub | apply (val_div _ _ _ _ Hq B3 N3)].
    + repeat first [eassumption | apply val_add | apply val_mul | apply val_opp | apply val_sub | apply (val_div _ _ _ _ Hq B4 N4)].
    + eassumption.
  - unfold heat_flows, free_heat. cbn [t_b t_i t_e t_c t_w]. repeat split; try (field; assumption); reflexivity.
Qed.

Lemma pos_cancel : forall c x y, 0 < c -> c * x <= c * y -> x <= y.
Proof. intros c x y Hc H. apply (Qmult_le_l x y c Hc). exact H. Qed.

(** Comparison of two trajectories. *)
Lemma flows_mono : forall dt h d e t u t' u', house_ok h -> short_step dt h (v_draw d) -> v_draw e == v_draw d ->
  v_out d <= v_out e -> free_heat h d <= free_heat h e -> v_dhw d <= v_dhw e -> v_sh d <= v_sh e ->
  cooler t u -> heat_flows dt h d t t' -> heat_flows dt h e u u' -> cooler t' u'.
Proof.
  intros dt h d e t u t' u' (P1 & P2 & P3 & P4 & P5 & P6 & P7 & P8 & P9) (S0 & S1 & S2 & S3 & S4 & S5) Hd Ho Hf Hw Hs
    (C1 & C2 & C3 & C4 & C5) (F1 & F2 & F3 & F4 & F5) (G1 & G2 & G3 & G4 & G5). cbv zeta in *.
  rewrite Hd in G4.
  assert (X1 : 0 <= (cb h - dt * (h_ob h + h_bi h)) * (t_b u - t_b t)) by (apply Qmult_le_0_compat; lra).
  assert (X2 : 0 <= (ci h - dt * (h_v h + h_bi h + h_em h + h_loss h)) * (t_i u - t_i t)) by (apply Qmult_le_0_compat; lra).
  assert (X3 : 0 <= (ce h - dt * h_em h) * (t_e u - t_e t)) by (apply Qmult_le_0_compat; lra).
  assert (X4 : 0 <= (cc h - dt * (h_loss h + v_draw d)) * (t_c u - t_c t)) by (apply Qmult_le_0_compat; lra).
  assert (M : forall c x y, 0 <= c -> x <= y -> 0 <= dt * c * (y - x)).
  { intros c x y Hc Hxy. apply Qmult_le_0_compat; [apply Qmult_le_0_compat; assumption|lra]. }
  pose proof (M (h_ob h) (v_out d) (v_out e) P5 Ho). pose proof (M (h_bi h) (t_i t) (t_i u) P6 C2). pose proof (M (h_bi h) (t_b t) (t_b u) P6 C1).
  pose proof (M (h_v h) (v_out d) (v_out e) P7 Ho). pose proof (M (h_em h) (t_e t) (t_e u) P8 C3). pose proof (M (h_em h) (t_i t) (t_i u) P8 C2).
  pose proof (M (h_loss h) (t_c t) (t_c u) P9 C4). pose proof (M (h_loss h) (t_i t) (t_i u) P9 C2).
  pose proof (M (v_draw d) (t_w t) (t_w u) S1 C5).
  assert (Y1 : 0 <= dt * (free_heat h e - free_heat h d)) by (apply Qmult_le_0_compat; lra).
  assert (Y2 : 0 <= dt * (v_dhw e - v_dhw d)) by (apply Qmult_le_0_compat; lra).
  assert (Y3 : 0 <= dt * (v_sh e - v_sh d)) by (apply Qmult_le_0_compat; lra).
  split; [|split; [|split; [|split]]].
  - apply (pos_cancel (cb h)); [assumption|]. lra.
  - apply (pos_cancel (ci h)); [assumption|]. lra.
  - apply (pos_cancel (ce h)); [assumption|]. lra.
  - apply (pos_cancel (cc h)); [assumption|]. lra.
  - lra.
Qed.

(** A household at one temperature everywhere, without heat. *)
Definition still (x draw : Q) : drive := Drive x 0 draw 0 0 0 0 0.
Lemma flows_still : forall dt h x draw, heat_flows dt h (still x draw) (flat x) (flat x).
Proof. intros. unfold heat_flows, still, flat, free_heat. simpl. repeat split; ring. Qed.

Lemma free_still : forall h x draw, free_heat h (still x draw) == 0.
Proof. intros. unfold free_heat, still. simpl. ring. Qed.

Lemma flows_lower : forall dt h d t t' lo, house_ok h -> short_step dt h (v_draw d) ->
  lo <= v_out d -> 0 <= free_heat h d -> 0 <= v_dhw d -> 0 <= v_sh d -> cooler (flat lo) t -> heat_flows dt h d t t' -> cooler (flat lo) t'.
Proof.
  intros dt h d t t' lo Hh Hs Ho Hf Hw Hq Hc H.
  apply (flows_mono dt h (still lo (v_draw d)) d (flat lo) t (flat lo) t'); try assumption; simpl; try lra.
  - rewrite free_still. assumption.
  - apply flows_still.
Qed.

Lemma flows_upper : forall dt h d t t' hi, house_ok h -> short_step dt h (v_draw d) ->
  v_out d <= hi -> free_heat h d <= 0 -> v_dhw d <= 0 -> v_sh d <= 0 -> cooler t (flat hi) -> heat_flows dt h d t t' -> cooler t' (flat hi).
Proof.
  intros dt h d t t' hi Hh Hs Ho Hf Hw Hq Hc H.
  apply (flows_mono dt h d (still hi (v_draw d)) t (flat hi) t' (flat hi)); try assumption; simpl; try lra.
  - rewrite free_still. assumption.
  - apply flows_still.
Qed.

(** Runs without heat. *)
Lemma run_within : forall dt b c h q lo hi l t v, val dt q -> house_is b c h -> house_ok h -> temps_are t v -> within lo hi v ->
  (forall w o, In (w, o) l -> exists d, drive_is w o d /\ short_step q h (v_draw d) /\ lo <= v_out d <= hi /\
     free_heat h d == 0 /\ v_dhw d == 0 /\ v_sh d == 0) ->
  exists v', temps_are (building_run dt b c l t) v' /\ within lo hi v'.
Proof.
  intros dt b c h q lo hi l. induction l as [|[w o] l IH]; intros t v Hq Hb Hh Ht Hv Hl; [exists v; auto|].
  destruct (Hl w o (or_introl eq_refl)) as (d & Hd & Hs & Ho & E1 & E2 & E3).
  destruct (building_flows dt b c t w o h d v q Hq Hb Hh Ht Hd) as (v' & Ht' & Hf). simpl. apply (IH _ v'); auto.
  - destruct Hv as [V1 V2]. split.
    + apply (flows_lower q h d v v' lo); auto; lra.
    + apply (flows_upper q h d v v' hi); auto; lra.
  - intros w' o' Hi. apply Hl. now right.
Qed.

(** ** Thermostat *)
Lemma thermostat_val : forall on t target band x y z, val t x -> val target y -> val band z ->
  (thermostat on t target band = true <-> (on = true /\ x < y + z) \/ (on = false /\ x <= y - z)).
Proof.
  intros on t target band x y z Hx Hy Hz. unfold thermostat. rewrite orb_true_iff, !andb_true_iff, negb_true_iff.
  rewrite (nlt_val _ _ _ _ Hx (val_add _ _ _ _ Hy Hz)), (nle_val _ _ _ _ Hx (val_sub _ _ _ _ Hy Hz)). reflexivity.
Qed.

Lemma thermostat_false : forall on t target band x y z, val t x -> val target y -> val band z ->
  (thermostat on t target band = false <-> (on = true /\ y + z <= x) \/ (on = false /\ y - z < x)).
Proof.
  intros on t target band x y z Hx Hy Hz. rewrite <- not_true_iff_false, (thermostat_val _ _ _ _ _ _ _ Hx Hy Hz).
  destruct on; split; intro H.
  - left. split; [reflexivity|]. apply Qnot_lt_le. intro K. apply H. auto.
  - intros [[_ K]|[K _]]; [|discriminate]. destruct H as [[_ H]|[H _]]; [lra|discriminate].
  - right. split; [reflexivity|]. apply Qnot_le_lt. intro K. apply H. auto.
  - intros [[K _]|[_ K]]; [discriminate|]. destruct H as [[H _]|[_ H]]; [discriminate|lra].
Qed.

Lemma thermostat_run_in_band : forall l on target band,
  (forall x, In x l -> target - band < x < target + band) -> thermostat_run on target band l = on.
Proof.
  induction l as [|x l IH]; intros on target band H; [reflexivity|]. simpl.
  assert (E : thermostat on (Some x) (Some target) (Some band) = on).
  { pose proof (H x (or_introl eq_refl)). destruct on.
    - apply (thermostat_val true _ _ _ x target band); try (apply val_some; reflexivity). left. split; [reflexivity|lra].
    - apply (thermostat_false false _ _ _ x target band); try (apply val_some; reflexivity). right. split; [reflexivity|lra]. }
  unfold thermostat_run in *. simpl. rewrite E. apply IH. intros y Hy. apply H. now right.
Qed.

(** ** Heating system *)
Lemma system_outputs : forall m k q x y ms mw, val (q_dhw q) x -> val (q_sh q) y -> val (m_sh m) ms -> val (m_dhw m) mw -> 0 <= ms -> 0 <= mw ->
  exists od os r, val (o_dhw (system_step m k q)) od /\ val (o_sh (system_step m k q)) os /\ val (o_total (system_step m k q)) (os + od) /\
    limited x mw r /\ 0 <= r <= mw /\
    (k_on k && k_hw k = true -> od == r) /\ (k_on k && k_hw k = false -> od == 0) /\
    (k_on k && k_sh k = false -> os == 0) /\
    (k_on k = true -> k_sh k = true -> k_hw k = false -> limited y ms os /\ 0 <= os <= ms) /\
    (k_on k = true -> k_sh k = true -> k_hw k = true -> (r <= ms -> limited y (ms - r) os /\ 0 <= os <= ms - r) /\ (ms <= r -> os == 0)).
Proof.
  intros m k q x y ms mw Hx Hy Hms Hmw Pms Pmw.
  destruct (clip_val _ _ _ _ Hx Hmw) as (r & Vr & _ & R). destruct (R Pmw) as [Rl Rr].
  destruct (clip_val _ _ _ _ (val_sub _ _ _ _ Hms Vr) Hms) as (rem & Vrem & _ & Q). destruct (Q Pms) as [(Q1 & Q2 & Q3) Qr]. clear R Q.
  destruct (clip_val _ _ _ _ Hy Vrem) as (s1 & V1 & _ & S1). destruct (S1 ltac:(lra)) as [L1 R1]. clear S1.
  destruct (clip_val _ _ _ _ Hy Hms) as (s2 & V2 & _ & S2). destruct (S2 Pms) as [L2 R2]. clear S2.
  assert (Z : val (Some 0) 0) by (apply val_some; reflexivity).
  unfold system_step, nwhere. destruct k as [[] [] []]; cbn [o_dhw o_sh o_total k_on k_hw k_sh andb negb].
  all: eexists; eexists; exists r; split; [eassumption|]; split; [eassumption|]; split; [apply val_add; eassumption|]; split; [exact Rl|]; split; [exact Rr|].
  all: repeat split; try discriminate; try reflexivity; try (intros; congruence); try assumption; try (apply L2); try (apply R2); try lra.
  all: try (destruct L1 as (A1 & A2 & A3); destruct (Qlt_le_dec ms r); [lra|]; assert (Er : rem == ms - r) by (apply Q2; lra); intros; try (apply A1; lra); try (apply A2; lra); try (rewrite A3; lra)).
  all: try lra.
Qed.

(** ** Splitting an external output *)
Lemma split_val : forall heat k q z x y, val heat z -> val (q_dhw q) x -> val (q_sh q) y ->
  exists d s, val (fst (split_heat heat k q)) d /\ val (snd (split_heat heat k q)) s /\ d + s == z /\
   (0 <= z -> 0 <= d /\ 0 <= s /\
      (k_on k && k_sh k = false -> s == 0) /\
      (k_on k = true -> k_hw k = false -> k_sh k = true -> limited y z s) /\
      (k_on k = true -> k_hw k = true -> k_sh k = true -> forall r, limited x z r -> limited y (z - r) s)).
Proof.
  intros heat k q z x y Hz Hx Hy.
  destruct (clip_val _ _ _ _ Hx Hz) as (r & Vr & Rn & R).
  pose proof (val_sub _ _ _ _ Hz Vr) as Vrem.
  destruct (clip_val _ _ _ _ Hy Vrem) as (s1 & V1 & N1 & S1). destruct (clip_val _ _ _ _ Hy Hz) as (s2 & V2 & N2 & S2).
  assert (Z : val (Some 0) 0) by (apply val_some; reflexivity).
  assert (U : 0 <= z -> forall r', limited x z r' -> r' == r).
  { intros Pz r' (A1 & A2 & A3). destruct (R Pz) as [(B1 & B2 & B3) _]. destruct (Qlt_le_dec x 0).
    - rewrite A1, B1 by lra. reflexivity.
    - destruct (Qlt_le_dec z x); [rewrite A3, B3 by lra; reflexivity|rewrite A2, B2 by lra; reflexivity]. }
  unfold split_heat, nwhere. destruct k as [[] [] []]; cbn [fst snd k_on k_hw k_sh andb negb].
  all: eexists; eexists; split; [apply val_add; [eassumption|apply val_sub; [apply val_sub; [exact Hz|eassumption]|eassumption]]|]; split; [eassumption|]; split; [ring|].
  all: intro Pz; destruct (R Pz) as [_ Rr]; destruct (S1 ltac:(lra)) as [L1 R1]; destruct (S2 Pz) as [L2 R2].
  all: split; [lra|]; split; [lra|]; split; [try discriminate; intros; reflexivity|]; split; [try discriminate; intros; assumption|]; try discriminate.
  all: intros _ _ _ r' Hr'; pose proof (U Pz r' Hr') as E; destruct L1 as (A1 & A2 & A3); unfold limited; split; [|split]; intros.
  all: first [apply A1; lra | apply A2; lra | rewrite A3; lra].
Qed.

(** ** Heat demand *)
Lemma hot_water_val : forall dt d c t g dhw q bhw cc' hl v w gd, val dt q -> 0 < q -> val (d_hw d) bhw -> val (C_cyl c) cc' -> val (H_loss c) hl ->
  temps_are t v -> val (g_dhw g) gd -> val dhw w ->
  val (demand_hot_water dt d c t g dhw) (cc' / q * (gd + bhw - t_c v) + w * (t_c v - t_w v) + hl * (t_c v - t_i v)).
Proof.
  intros dt d c t g dhw q bhw cc' hl v w gd Hq Pq Hb Hc Hl (T1 & T2 & T3 & T4 & T5') Hg Hw. unfold demand_hot_water.
  assert (N : ~ q == 0) by lra.
  repeat first [eassumption | apply val_add | apply val_sub | apply val_mul | apply (val_div _ _ _ _ Hc Hq N)].
Qed.

Lemma emitters_val : forall dt d b t g q bem ce' he v ge, val dt q -> 0 < q -> val (d_em d) bem -> val (C_em b) ce' -> val (H_em b) he ->
  temps_are t v -> val (g_em g) ge ->
  val (demand_emitters dt d b t g) (ce' / q * (ge + bem - t_e v) + he * (t_e v - t_i v)).
Proof.
  intros dt d b t g q bem ce' he v ge Hq Pq Hb Hc Hl (T1 & T2 & T3 & T4 & T5') Hg. unfold demand_emitters.
  assert (N : ~ q == 0) by lra.
  repeat first [eassumption | apply val_add | apply val_sub | apply val_mul | apply (val_div _ _ _ _ Hc Hq N)].
Qed.

(** Delivering at most the demand keeps the cylinder at or below its goal. *)
Lemma cylinder_reach : forall dt h d t t' goal, 0 < dt -> house_ok h -> heat_flows dt h d t t' ->
  let q := cc h / dt * (goal - t_c t) + v_draw d * (t_c t - t_w t) + h_loss h * (t_c t - t_i t) in
  (v_dhw d == q -> t_c t' == goal) /\ (v_dhw d <= q -> t_c t' <= goal) /\ (q <= v_dhw d -> goal <= t_c t').
Proof.
  intros dt h d t t' goal Pdt (P1 & P2 & P3 & P4 & _) (F1 & F2 & F3 & F4 & F5) q. cbv zeta in F4.
  assert (E : cc h * (t_c t' - goal) == dt * (v_dhw d - q)).
  { assert (cc h * (t_c t' - goal) == cc h * (t_c t' - t_c t) + cc h * (t_c t - goal)) by ring. rewrite H, F4. unfold q. field. lra. }
  split; [|split]; intro H.
  - assert (Z : cc h * (t_c t' - goal) == 0) by (rewrite E, H; ring). apply Qmult_integral in Z. destruct Z; lra.
  - apply (pos_cancel (cc h)); [assumption|]. assert (0 <= dt * (q - v_dhw d)) by (apply Qmult_le_0_compat; lra). lra.
  - apply (pos_cancel (cc h)); [assumption|]. assert (0 <= dt * (v_dhw d - q)) by (apply Qmult_le_0_compat; lra). lra.
Qed.

Lemma emitter_reach : forall dt h d t t' goal, 0 < dt -> house_ok h -> heat_flows dt h d t t' ->
  let q := ce h / dt * (goal - t_e t) + h_em h * (t_e t - t_i t) in
  (v_sh d == q -> t_e t' == goal) /\ (v_sh d <= q -> t_e t' <= goal) /\ (q <= v_sh d -> goal <= t_e t').
Proof.
  intros dt h d t t' goal Pdt (P1 & P2 & P3 & P4 & _) (F1 & F2 & F3 & F4 & F5) q. cbv zeta in F3.
  assert (E : ce h * (t_e t' - goal) == dt * (v_sh d - q)).
  { assert (ce h * (t_e t' - goal) == ce h * (t_e t' - t_e t) + ce h * (t_e t - goal)) by ring. rewrite H, F3. unfold q. field. lra. }
  split; [|split]; intro H.
  - assert (Z : ce h * (t_e t' - goal) == 0) by (rewrite E, H; ring). apply Qmult_integral in Z. destruct Z; lra.
  - apply (pos_cancel (ce h)); [assumption|]. assert (0 <= dt * (q - v_sh d)) by (apply Qmult_le_0_compat; lra). lra.
  - apply (pos_cancel (ce h)); [assumption|]. assert (0 <= dt * (v_sh d - q)) by (apply Qmult_le_0_compat; lra). lra.
Qed.

(** The room estimation: walls in series between room and outside. *)
Lemma series_val : forall b x y, val (H_bi b) x -> val (H_ob b) y -> 0 < x -> 0 < y ->
  exists s, val (H_ibo b) s /\ s * (x + y) == x * y.
Proof.
  intros b x y Hx Hy Px Py. unfold H_ibo. assert (O : val (Some 1) 1) by (apply val_some; reflexivity).
  assert (Nx : ~ x == 0) by lra. assert (Ny : ~ y == 0) by lra.
  pose proof (val_add _ _ _ _ (val_div _ _ _ _ O Hx Nx) (val_div _ _ _ _ O Hy Ny)) as S.
  assert (N : ~ 1 / x + 1 / y == 0).
  { assert (A : 0 < / x) by (apply Qinv_lt_0_compat; exact Px). assert (B : 0 < / y) by (apply Qinv_lt_0_compat; exact Py).
    unfold Qdiv. lra. }
  exists (1 / (1 / x + 1 / y)). split; [exact (val_div _ _ _ _ O S N)|]. field. repeat split; try assumption. intro Z. lra.
Qed.

Lemma room_val : forall dt d b t g out q bsh c x y hv he v gr o, val dt q -> 0 < q -> val (d_sh d) bsh -> val (C_i b) c ->
  val (H_bi b) x -> val (H_ob b) y -> 0 < x -> 0 < y -> val (H_v b) hv -> val (H_em b) he ->
  temps_are t v -> val (g_sh g) gr -> val out o ->
  exists s, s * (x + y) == x * y /\
  val (demand_room dt d b t g out) (c / q * (gr + bsh - t_i v) - he * (t_e v - t_i v) + hv * (t_i v - o) + s * (t_i v - o)).
Proof.
  intros dt d b t g out q bsh c x y hv he v gr o Hq Pq Hb Hc Hx Hy Px Py Hv He (T1 & T2 & T3 & T4 & T5') Hg Ho.
  destruct (series_val b x y Hx Hy Px Py) as (s & Hs & Es). exists s. split; [exact Es|]. unfold demand_room.
  assert (N : ~ q == 0) by lra.
  repeat first [eassumption | apply val_add | apply val_sub | apply val_mul | apply (val_div _ _ _ _ Hc Hq N)].
Qed.

Lemma room_reach : forall dt h d t t' goal s, 0 < dt -> house_ok h -> heat_flows dt h d t t' ->
  s * (h_bi h + h_ob h) == h_bi h * h_ob h -> 0 < h_bi h -> 0 < h_ob h ->
  h_ob h * (v_out d - t_b t) + h_bi h * (t_i t - t_b t) == 0 ->
  let q := ci h / dt * (goal - t_i t) - h_em h * (t_e t - t_i t) + h_v h * (t_i t - v_out d) + s * (t_i t - v_out d) in
  let got := free_heat h d + h_loss h * (t_c t - t_i t) in
  (got == q -> t_i t' == goal) /\ (got <= q -> t_i t' <= goal) /\ (q <= got -> goal <= t_i t').
Proof.
  intros dt h d t t' goal s Pdt (P1 & P2 & P3 & P4 & _) (F1 & F2 & F3 & F4 & F5) Es Px Py St q got. cbv zeta in F2.
  assert (W : h_bi h * (t_i t - t_b t) == s * (t_i t - v_out d)).
  { assert (A : (h_bi h + h_ob h) * t_b t == h_bi h * t_i t + h_ob h * v_out d) by lra.
    assert (B : (h_bi h + h_ob h) * (h_bi h * (t_i t - t_b t) - s * (t_i t - v_out d)) == 0).
    { assert (C : (h_bi h + h_ob h) * (h_bi h * (t_i t - t_b t) - s * (t_i t - v_out d)) ==
        h_bi h * ((h_bi h + h_ob h) * t_i t - (h_bi h + h_ob h) * t_b t) - (s * (h_bi h + h_ob h)) * (t_i t - v_out d)) by ring.
      rewrite C, A, Es. ring. }
    apply Qmult_integral in B. destruct B; lra. }
  assert (E : ci h * (t_i t' - goal) == dt * (got - q)).
  { assert (ci h * (t_i t' - goal) == ci h * (t_i t' - t_i t) + ci h * (t_i t - goal)) by ring. rewrite H, F2, W. unfold q, got. field. lra. }
  split; [|split]; intro H.
  - assert (Z : ci h * (t_i t' - goal) == 0) by (rewrite E, H; ring). apply Qmult_integral in Z. destruct Z; lra.
  - apply (pos_cancel (ci h)); [assumption|]. assert (0 <= dt * (q - got)) by (apply Qmult_le_0_compat; lra). lra.
  - apply (pos_cancel (ci h)); [assumption|]. assert (0 <= dt * (got - q)) by (apply Qmult_le_0_compat; lra). lra.
Qed.

(** ** One step of the five modules without anything external *)
Lemma assign_none : forall a, assign_external a None = a.
Proof. reflexivity. Qed.

Lemma five_internal : forall p x w P v g d, plant_is p P -> temps_are (x_temps x) v -> targets_are (x_targets x) g -> weather_is w d ->
  x_algo x = "heat_max_emmiters"%string ->
  exists x' q1 q2 od os v', five_step p x (internal w) = Ok x' /\
    x_algo x' = x_algo x /\ x_targets x' = x_targets x /\ x_ext_cyl x' = x_ext_cyl x /\ x_ext_sys x' = false /\
    x_controls x' = controls_step (m_combi (p_system p)) (x_ext_cyl x) (w_dhw w) (x_therm x') /\
    (let h := pl_house P in
     q1 == cc h / 60 * (t_water g + pl_bhw P - t_c v) + v_draw d * (t_c v - t_w v) + h_loss h * (t_c v - t_i v) /\
     q2 == ce h / 60 * (t_emit g + pl_bem P - t_e v) + h_em h * (t_e v - t_i v)) /\
    val (q_dhw (x_demand x')) q1 /\ val (q_sh (x_demand x')) q2 /\
    x_outputs x' = system_step (p_system p) (x_controls x') (x_demand x') /\
    val (o_dhw (x_outputs x')) od /\ val (o_sh (x_outputs x')) os /\
    temps_are (x_temps x') v' /\ heat_flows (pl_dt P) (pl_house P) (with_heat d od os) v v'.
Proof.
  intros p x w P v g d (Hh & Hok & Hms & Hmw & Pms & Pmw & Hbs & Hbw & Hbe & Hdt) Ht (G1 & G2 & G3') Hw Ha.
  unfold five_step, internal. cbn [i_gains i_target i_heat i_dhw i_sh i_cyl external_outputs set_outputs].
  rewrite assign_none. destruct (x_temps x) as [xb xi xe xc xw] eqn:Ex. cbn [T_b T_i T_em T_cyl T_cold].
  unfold thermostats_step. cbn [bind]. unfold demand_step, demand_space. rewrite Ha. cbn [bind fst snd].
  assert (E : String.eqb "heat_max_emmiters" "heat_max_emmiters" = true) by reflexivity. rewrite E. cbn [bind fst snd].
  set (k := controls_step _ _ _ _). set (q := Demand _ _). eexists.
  pose proof Hh as (B1 & B2 & B3 & B4 & B5 & B6 & B7 & B8 & B9 & B10).
  assert (V1 : val (q_dhw q) (cc (pl_house P) / 60 * (t_water g + pl_bhw P - t_c v) + v_draw d * (t_c v - t_w v) + h_loss (pl_house P) * (t_c v - t_i v))).
  { unfold q. cbn [q_dhw]. destruct Hw as (_ & _ & Wd & _). apply hot_water_val; try assumption; [apply val_some; reflexivity|lra]. }
  assert (V2 : val (q_sh q) (ce (pl_house P) / 60 * (t_emit g + pl_bem P - t_e v) + h_em (pl_house P) * (t_e v - t_i v))).
  { unfold q. cbn [q_sh]. apply emitters_val; try assumption; [apply val_some; reflexivity|lra]. }
  destruct (system_outputs (p_system p) k q _ _ _ _ V1 V2 Hms Hmw Pms Pmw) as (od & os & r & O1 & O2 & _).
  destruct (building_flows (p_dt p) (p_building p) (m_cyl (p_system p)) (Temps xb xi xe xc xw) w (system_step (p_system p) k q)
              (pl_house P) (with_heat d od os) v (pl_dt P)) as (v' & Ht' & Hf); try assumption.
  { destruct Hw as (W1 & W2 & W3 & W4 & W5 & W6). unfold drive_is, with_heat. cbn. auto 10. }
  exists (cc (pl_house P) / 60 * (t_water g + pl_bhw P - t_c v) + v_draw d * (t_c v - t_w v) + h_loss (pl_house P) * (t_c v - t_i v)).
  exists (ce (pl_house P) / 60 * (t_emit g + pl_bem P - t_e v) + h_em (pl_house P) * (t_e v - t_i v)).
  exists od, os, v'. split; [reflexivity|]. cbn [x_algo x_targets x_ext_cyl x_ext_sys x_controls x_therm x_demand x_outputs x_temps].
  split; [reflexivity|]. split; [reflexivity|]. split; [reflexivity|]. split; [reflexivity|]. split; [reflexivity|].
  split; [split; reflexivity|]. auto 10.
Qed.

(** Node by node upper bounds. *)
Lemma wall_upper : forall dt h d t t' hi, house_ok h -> short_step dt h (v_draw d) -> v_out d <= hi -> t_b t <= hi -> t_i t <= hi ->
  heat_flows dt h d t t' -> t_b t' <= hi.
Proof.
  intros dt h d t t' hi (P1 & P2 & P3 & P4 & P5 & P6 & P7 & P8 & P9) (S0 & S1 & S2 & S3 & S4 & S5) Ho Hb Hi (F1 & _). cbv zeta in F1.
  apply (pos_cancel (cb h)); [assumption|].
  assert (0 <= (cb h - dt * (h_ob h + h_bi h)) * (hi - t_b t)) by (apply Qmult_le_0_compat; lra).
  assert (0 <= dt * h_ob h * (hi - v_out d)) by (apply Qmult_le_0_compat; [apply Qmult_le_0_compat; assumption|lra]).
  assert (0 <= dt * h_bi h * (hi - t_i t)) by (apply Qmult_le_0_compat; [apply Qmult_le_0_compat; assumption|lra]).
  lra.
Qed.

Lemma room_upper : forall dt h d t t' hi, house_ok h -> short_step dt h (v_draw d) -> free_heat h d <= h_v h * (hi - v_out d) ->
  t_b t <= hi -> t_i t <= hi -> t_e t <= hi -> t_c t <= hi -> heat_flows dt h d t t' -> t_i t' <= hi.
Proof.
  intros dt h d t t' hi (P1 & P2 & P3 & P4 & P5 & P6 & P7 & P8 & P9) (S0 & S1 & S2 & S3 & S4 & S5) Hf Hb Hi He Hc (_ & F2 & _). cbv zeta in F2.
  apply (pos_cancel (ci h)); [assumption|].
  assert (0 <= (ci h - dt * (h_v h + h_bi h + h_em h + h_loss h)) * (hi - t_i t)) by (apply Qmult_le_0_compat; lra).
  assert (0 <= dt * (h_v h * (hi - v_out d) - free_heat h d)) by (apply Qmult_le_0_compat; lra).
  assert (M : forall c x, 0 <= c -> x <= hi -> 0 <= dt * c * (hi - x)).
  { intros c x Hc' Hx. apply Qmult_le_0_compat; [apply Qmult_le_0_compat; assumption|lra]. }
  pose proof (M (h_bi h) (t_b t) P6 Hb). pose proof (M (h_em h) (t_e t) P8 He). pose proof (M (h_loss h) (t_c t) P9 Hc). lra.
Qed.

Lemma emitter_upper : forall dt h d t t' hi, house_ok h -> short_step dt h (v_draw d) -> v_sh d <= 0 -> t_i t <= hi -> t_e t <= hi ->
  heat_flows dt h d t t' -> t_e t' <= hi.
Proof.
  intros dt h d t t' hi (P1 & P2 & P3 & P4 & P5 & P6 & P7 & P8 & P9) (S0 & S1 & S2 & S3 & S4 & S5) Hs Hi He (_ & _ & F3 & _). cbv zeta in F3.
  apply (pos_cancel (ce h)); [assumption|].
  assert (0 <= (ce h - dt * h_em h) * (hi - t_e t)) by (apply Qmult_le_0_compat; lra).
  assert (0 <= dt * h_em h * (hi - t_i t)) by (apply Qmult_le_0_compat; [apply Qmult_le_0_compat; assumption|lra]).
  assert (0 <= dt * - v_sh d) by (apply Qmult_le_0_compat; lra). lra.
Qed.

Lemma cylinder_upper : forall dt h d t t' hi, house_ok h -> short_step dt h (v_draw d) -> v_dhw d <= 0 -> t_i t <= hi -> t_c t <= hi -> t_w t <= hi ->
  heat_flows dt h d t t' -> t_c t' <= hi.
Proof.
  intros dt h d t t' hi (P1 & P2 & P3 & P4 & P5 & P6 & P7 & P8 & P9) (S0 & S1 & S2 & S3 & S4 & S5) Hs Hi Hc Hw (_ & _ & _ & F4 & _). cbv zeta in F4.
  apply (pos_cancel (cc h)); [assumption|].
  assert (0 <= (cc h - dt * (h_loss h + v_draw d)) * (hi - t_c t)) by (apply Qmult_le_0_compat; lra).
  assert (0 <= dt * h_loss h * (hi - t_i t)) by (apply Qmult_le_0_compat; [apply Qmult_le_0_compat; assumption|lra]).
  assert (0 <= dt * v_draw d * (hi - t_w t)) by (apply Qmult_le_0_compat; [apply Qmult_le_0_compat; assumption|lra]).
  assert (0 <= dt * - v_dhw d) by (apply Qmult_le_0_compat; lra). lra.
Qed.

(** The output is nothing or at most the demand, and never negative. *)
Lemma system_under : forall m k q x y ms mw od os, val (q_dhw q) x -> val (q_sh q) y -> val (m_sh m) ms -> val (m_dhw m) mw -> 0 <= ms -> 0 <= mw ->
  val (o_dhw (system_step m k q)) od -> val (o_sh (system_step m k q)) os ->
  0 <= od /\ 0 <= os /\ (od <= 0 \/ od <= x) /\ (os <= 0 \/ os <= y).
Proof.
  intros m k q x y ms mw od os Hx Hy Hms Hmw Pms Pmw Vd Vs.
  destruct (system_outputs m k q x y ms mw Hx Hy Hms Hmw Pms Pmw) as (od' & os' & r & D & S' & _ & Lr & Rr & D1 & D2 & S1 & S2 & S3).
  rewrite (val_fun _ _ _ Vd D), (val_fun _ _ _ Vs S').
  assert (L : forall z hi u, limited z hi u -> 0 <= u <= hi -> u <= 0 \/ u <= z).
  { intros z hi u (A1 & A2 & A3) Hu. destruct (Qlt_le_dec z 0); [left; rewrite A1; lra|]. destruct (Qlt_le_dec hi z); right; [lra|rewrite A2; lra]. }
  assert (D' : 0 <= od' /\ (od' <= 0 \/ od' <= x)).
  { destruct (k_on k && k_hw k); [specialize (D1 eq_refl)|specialize (D2 eq_refl)].
    - split; [lra|]. destruct (L x mw r Lr Rr); [left|right]; lra.
    - split; [|left]; lra. }
  assert (S'' : 0 <= os' /\ (os' <= 0 \/ os' <= y)).
  { destruct (k_on k && k_sh k) eqn:E; [|specialize (S1 eq_refl); split; [|left]; lra].
    apply andb_true_iff in E. destruct E as [E1 E2]. destruct (k_hw k).
    - destruct (S3 E1 E2 eq_refl) as [A B]. destruct (Qlt_le_dec ms r); [specialize (B ltac:(lra)); split; [|left]; lra|].
      destruct (A ltac:(lra)) as [A1 A2]. split; [lra|]. apply (L y (ms - r)); assumption.
    - destruct (S2 E1 E2 eq_refl) as [A1 A2]. split; [lra|]. apply (L y ms); assumption. }
  tauto.
Qed.

Lemma five_within : forall p x w P v g d lo hi, plant_is p P -> temps_are (x_temps x) v -> targets_are (x_targets x) g -> weather_is w d ->
  x_algo x = "heat_max_emmiters"%string -> pl_dt P == 60 -> within lo hi v -> mild (pl_dt P) (pl_house P) lo hi d -> v_out d <= hi ->
  t_water g + pl_bhw P <= hi -> t_emit g + pl_bem P <= hi ->
  exists x' v', five_step p x (internal w) = Ok x' /\ temps_are (x_temps x') v' /\ within lo hi v' /\
    x_targets x' = x_targets x /\ x_algo x' = x_algo x.
Proof.
  intros p x w P v g d lo hi HP Ht Hg Hw Ha Hdt [V1 V2] (M1 & M2 & M3 & M4) Hout Hgw Hge.
  destruct (five_internal p x w P v g d HP Ht Hg Hw Ha) as (x' & q1 & q2 & od & os & v' & Hstep & E1 & E2 & _ & _ & _ & (Q1 & Q2) & D1 & D2 & Ho & O1 & O2 & Ht' & Hf).
  exists x', v'. split; [exact Hstep|]. split; [exact Ht'|]. split; [|split; assumption].
  destruct HP as (_ & Hok & Hms & Hmw & Pms & Pmw & _). rewrite Ho in O1, O2.
  destruct (system_under _ _ _ _ _ _ _ _ _ D1 D2 Hms Hmw Pms Pmw O1 O2) as (N1 & N2 & U1 & U2).
  split.
  - apply (flows_lower (pl_dt P) (pl_house P) (with_heat d od os) v v' lo); auto.
  - assert (Pdt : 0 < pl_dt P) by lra. destruct V2 as (X1 & X2 & X3 & X4 & X5). cbn in X1, X2, X3, X4, X5.
    split; [|split; [|split; [|split]]]; cbn.
    + apply (wall_upper _ _ (with_heat d od os) _ _ hi Hok M1 Hout X1 X2 Hf).
    + apply (room_upper _ _ (with_heat d od os) _ _ hi Hok M1 M4 X1 X2 X3 X4 Hf).
    + destruct U2 as [U2|U2].
      * apply (emitter_upper _ _ (with_heat d od os) _ _ hi Hok M1 U2 X2 X3 Hf).
      * destruct (emitter_reach _ _ (with_heat d od os) _ _ (t_emit g + pl_bem P) Pdt Hok Hf) as (_ & R & _). cbn in R. cbv zeta in R.
        assert (t_e v' <= t_emit g + pl_bem P); [apply R|lra]. rewrite Hdt. rewrite <- Q2. exact U2.
    + destruct U1 as [U1|U1].
      * apply (cylinder_upper _ _ (with_heat d od os) _ _ hi Hok M1 U1 X2 X4 X5 Hf).
      * destruct (cylinder_reach _ _ (with_heat d od os) _ _ (t_water g + pl_bhw P) Pdt Hok Hf) as (_ & R & _). cbn in R. cbv zeta in R.
        assert (t_c v' <= t_water g + pl_bhw P); [apply R|lra]. rewrite Hdt. rewrite <- Q1. exact U1.
    + destruct Hf as (_ & _ & _ & _ & F5). rewrite F5. exact X5.
Qed.

Lemma five_run_within : forall p P g lo hi l x v, plant_is p P -> temps_are (x_temps x) v -> targets_are (x_targets x) g ->
  x_algo x = "heat_max_emmiters"%string -> pl_dt P == 60 -> within lo hi v -> t_water g + pl_bhw P <= hi -> t_emit g + pl_bem P <= hi ->
  (forall w, In w l -> exists d, weather_is w d /\ mild (pl_dt P) (pl_house P) lo hi d /\ v_out d <= hi) ->
  exists x' v', five_run p x (map internal l) = Ok x' /\ temps_are (x_temps x') v' /\ within lo hi v'.
Proof.
  intros p P g lo hi l. induction l as [|w l IH]; intros x v HP Ht Hg Ha Hdt Hv H1 H2 Hl; [exists x, v; auto|].
  destruct (Hl w (or_introl eq_refl)) as (d & Hw & Hm & Ho).
  destruct (five_within p x w P v g d lo hi HP Ht Hg Hw Ha Hdt Hv Hm Ho H1 H2) as (x1 & v1 & E & Ht1 & Hv1 & E1 & E2).
  simpl. rewrite E. simpl. apply (IH x1 v1); auto.
  - rewrite E1. exact Hg.
  - congruence.
  - intros w' Hw'. apply Hl. now right.
Qed.

(** ** External inputs that say nothing *)
Definition known_nan (d : list (string * option Q)) : Prop :=
  forall k v, In (k, v) d -> v = None /\ (k = "dhw" \/ k = "space_heating" \/ k = "total")%string.

Lemma dset_in : forall (d : list (string * option Q)) k v k' v', In (k', v') (dset String.eqb d k v) -> (k', v') = (k, v) \/ In (k', v') d.
Proof.
  induction d as [|[a b] d IH]; intros k v k' v' H; simpl in H.
  - destruct H as [H|[]]. left. congruence.
  - destruct (String.eqb_spec k a) as [->|N]; simpl in H.
    + destruct H as [H|H]; [left; congruence|right; now right].
    + destruct H as [H|H]; [right; now left|]. destruct (IH _ _ _ _ H); [now left|right; now right].
Qed.

Lemma dget_in : forall (d : list (string * option Q)) k v, dget String.eqb d k = Some v -> In (k, v) d.
Proof.
  induction d as [|[a b] d IH]; intros k v H; simpl in H; [discriminate|].
  destruct (String.eqb_spec k a) as [->|N]; [injection H as ->; now left|right; auto].
Qed.

Lemma set_outputs_nan : forall d o, known_nan d -> set_outputs o d = Ok o.
Proof.
  induction d as [|[k v] d IH]; intros o H; [reflexivity|]. destruct (H k v (or_introl eq_refl)) as [-> Hk].
  assert (E : set_output o (k, None) = Ok o) by (destruct Hk as [->|[->| ->]]; destruct o; reflexivity).
  simpl. rewrite E. simpl. apply IH. intros k' v' Hi. apply H. now right.
Qed.

Lemma has_external_nan : forall d, known_nan d -> has_external d = false.
Proof.
  intros d H. unfold has_external.
  assert (G : forall k, match dget String.eqb d k with Some v => negb (is_nan v) | None => false end = false).
  { intro k. destruct (dget String.eqb d k) as [v|] eqn:E; [|reflexivity]. apply dget_in in E. destruct (H k v E) as [-> _]. reflexivity. }
  rewrite !G. reflexivity.
Qed.

Lemma external_nan : forall k q e dhw sh, heat_absent e -> absent dhw -> absent sh -> known_nan (external_outputs k q e dhw sh).
Proof.
  intros k q e dhw sh He Hd Hs. unfold external_outputs.
  assert (K0 : exists d0, match e with HeatDict d => d | HeatArray v => let '(a, b) := split_heat v k q in [("dhw", a); ("space_heating", b)]%string | NoHeat => [] end = d0 /\ known_nan d0).
  { destruct He as [->|(d & -> & He)]; eexists; (split; [reflexivity|]); [intros a b []|exact He]. }
  destruct K0 as (d0 & -> & K0).
  assert (K1 : known_nan (match dhw with Some v => dset String.eqb d0 "dhw"%string v | None => d0 end)).
  { destruct Hd as [->| ->]; [exact K0|]. intros a b Hi. apply dset_in in Hi. destruct Hi as [Hi|Hi]; [injection Hi as -> ->; auto|auto]. }
  destruct Hs as [->| ->]; [exact K1|]. intros a b Hi. apply dset_in in Hi. destruct Hi as [Hi|Hi]; [injection Hi as -> ->; auto|auto].
Qed.

Lemma five_absent : forall p x i, i_target i = None -> heat_absent (i_heat i) -> absent (i_dhw i) -> absent (i_sh i) -> absent (i_cyl i) ->
  match five_step p x i, five_step p x (internal (i_gains i)) with
  | Ok a, Ok b => same_view a b
  | Err e, Err f => e = f
  | _, _ => False
  end.
Proof.
  intros p x i H1 H2 H3 H4 H5. unfold five_step.
  pose proof (external_nan (x_controls x) (x_demand x) _ _ _ H2 H3 H4) as K.
  set (ext := external_outputs _ _ (i_heat i) _ _) in *. cbv zeta. rewrite (has_external_nan ext K), H1.
  assert (E : assign_external (T_cyl (x_temps x)) (i_cyl i) = T_cyl (x_temps x)) by (destruct H5 as [->| ->]; reflexivity).
  rewrite E. cbn [internal i_gains i_target i_heat i_dhw i_sh i_cyl external_outputs]. rewrite assign_none.
  unfold thermostats_step. cbn [bind].
  match goal with |- match bind ?a _ with _ => _ end => destruct a as [[q algo]|e] end; cbn [bind]; [|reflexivity].
  rewrite (set_outputs_nan ext _ K). cbn [set_outputs bind has_external dget].
  destruct H5 as [->| ->]; repeat split; reflexivity.
Qed.

(** ** Fuel *)
Lemma fuel_types_in : forall l f, In f (fuel_types l) <-> exists h, In h l /\ m_fuel (h_sys h) = f.
Proof.
  induction l as [|h l IH]; intro f; simpl; [split; [intros []|intros (h & [] & _)]|]. rewrite filter_In, IH. split.
  - intros [E|[(h' & A & B) _]]; [exists h; auto|exists h'; auto].
  - intros (h' & [->|A] & B); [now left|]. destruct (String.eqb_spec f (m_fuel (h_sys h))) as [->|N]; [now left|right].
    split; [exists h'; auto|reflexivity].
Qed.

Lemma fuel_dict : forall l ts d, mapM (fun f => if String.eqb f "Mainsgas" || String.eqb f "Electricity" then Ok (f, map (fuel_of f) l) else Err ValueError) ts = Ok d ->
  forall f, (In f ts -> dget String.eqb d f = Some (map (fuel_of f) l)) /\ (~ In f ts -> dget String.eqb d f = None).
Proof.
  intros l. induction ts as [|a ts IH]; intros d H f; simpl in H; [injection H as <-; split; [intros []|reflexivity]|].
  destruct (_ || _); simpl in H; [|discriminate].
  match type of H with bind ?m _ = _ => destruct m as [d'|] eqn:E end; simpl in H; [|discriminate]. injection H as <-. simpl.
  destruct (IH d' eq_refl f) as [A B]. destruct (String.eqb_spec f a) as [->|N].
  - split; [reflexivity|intro C; exfalso; apply C; now left].
  - split; [intros [->|C]; [congruence|auto]|intro C; apply B; intro; apply C; now right].
Qed.

Lemma fuel_or_zero_eq : forall l d f, fuel_consumptions l = Ok d -> fuel_or_zero d l f = map (fuel_of f) l.
Proof.
  intros l d f H. unfold fuel_consumptions in H. destruct (fuel_dict l _ d H f) as [A B]. unfold fuel_or_zero.
  destruct (in_dec string_dec f (fuel_types l)) as [I|I]; [rewrite (A I); reflexivity|rewrite (B I)].
  apply map_ext_in. intros h Hh. unfold fuel_of, nwhere. destruct (String.eqb_spec (m_fuel (h_sys h)) f) as [E|N]; [|reflexivity].
  exfalso. apply I. apply fuel_types_in. exists h. auto.
Qed.

Lemma pumps_map : forall l, pumps l = map (fun h => pump_power (h_sys h) (h_ctl h)) l.
Proof. induction l; simpl; congruence. Qed.

Lemma map2_map : forall A B C D (f : B -> C -> D) (g : A -> B) (k : A -> C) (l : list A), map2 f (map g l) (map k l) = map (fun x => f (g x) (k x)) l.
Proof. intros. induction l; simpl; congruence. Qed.

Lemma system_power_eq : forall l v, system_power l = Ok v ->
  v = map (fun h => nadd (pump_power (h_sys h) (h_ctl h)) (fuel_of "Electricity" h)) l.
Proof.
  intros l v H. unfold system_power in H. destruct (fuel_consumptions l) as [d|] eqn:E; simpl in H; [|discriminate].
  injection H as <-. rewrite (fuel_or_zero_eq l d _ E), pumps_map, map2_map. reflexivity.
Qed.

Lemma system_energy_eq : forall l v, system_energy l = Ok v ->
  v = map (fun h => nadd (nadd (pump_power (h_sys h) (h_ctl h)) (fuel_of "Electricity" h)) (nmul (ndiv (fuel_of "Mainsgas" h) (m_flow (h_sys h))) (m_toW (h_sys h)))) l.
Proof.
  intros l v H. unfold system_energy in H. destruct (fuel_consumptions l) as [d|] eqn:E; simpl in H; [|discriminate].
  injection H as <-. rewrite !(fuel_or_zero_eq l d _ E), pumps_map, map2_map.
  assert (G : map2 (fun g h => nmul (ndiv g (m_flow (h_sys h))) (m_toW (h_sys h))) (map (fuel_of "Mainsgas") l) l =
              map (fun h => nmul (ndiv (fuel_of "Mainsgas" h) (m_flow (h_sys h))) (m_toW (h_sys h))) l).
  { clear. induction l; simpl; congruence. }
  rewrite G, map2_map. reflexivity.
Qed.

Definition known_fuels (l : list heated) : Prop := forall h, In h l -> m_fuel (h_sys h) = "Mainsgas"%string \/ m_fuel (h_sys h) = "Electricity"%string.
Lemma fuel_total : forall l, known_fuels l <-> exists d, fuel_consumptions l = Ok d.
Proof.
  intro l. unfold fuel_consumptions. split.
  - intro K. apply mapM_total. intros f Hf. apply fuel_types_in in Hf. destruct Hf as (h & Hh & E). destruct (K h Hh) as [F|F]; rewrite <- E, F; simpl; eauto.
  - intros [d H] h Hh. destruct (fuel_types_in l (m_fuel (h_sys h))) as [_ G]. assert (I : In (m_fuel (h_sys h)) (fuel_types l)) by (apply G; eauto).
    apply in_at in I. destruct I as [k I]. destruct (mapM_ok _ _ _ _ _ H) as [_ M]. destruct (M k _ I) as (y & _ & Ey).
    destruct (String.eqb_spec (m_fuel (h_sys h)) "Mainsgas"); [now left|]. destruct (String.eqb_spec (m_fuel (h_sys h)) "Electricity"); [now right|]. discriminate.
Qed.

Lemma fuel_err : forall l, ~ known_fuels l -> fuel_consumptions l = Err ValueError.
Proof.
  intros l H. assert (N : forall d, fuel_consumptions l <> Ok d). { intros d E. apply H, fuel_total. eauto. }
  unfold fuel_consumptions in *. clear H. revert N. generalize (fuel_types l) as ts. induction ts as [|a ts IH]; intro N; simpl in *.
  - exfalso. apply (N _ eq_refl).
  - destruct (_ || _); simpl in *; [|reflexivity]. match goal with |- bind ?m _ = _ => destruct m as [d|e] eqn:E end; simpl in *.
    + exfalso. apply (N _ eq_refl).
    + apply IH. discriminate.
Qed.

(** ** Initial temperatures *)
Lemma initial_ranges : forall outside target nominal u1 u2 o g n a b,
  val outside o -> val target g -> val nominal n -> val u1 a -> val u2 b -> -(1) <= a -> a < 1 -> 0 <= b -> b < 1 ->
  exists v, temps_are (initialize_temperatures outside target nominal u1 u2) v /\
    g - 1 <= t_i v /\ t_i v < g + 1 /\ t_b v - o == g - t_b v /\ 50 <= t_c v /\ t_c v < 52 /\ t_w v == 10 /\
    (g <= t_i v -> t_e v == t_i v) /\ (t_i v < g -> t_e v == n).
Proof.
  intros outside target nominal u1 u2 o g n a b Ho Hg Hn Ha Hb A1 A2 B1 B2.
  assert (S : forall q, val (Some q) q) by (intro; apply val_some; reflexivity).
  pose proof (val_add _ _ _ _ Hg Ha) as Hi. pose proof (nle_val _ _ _ _ Hg Hi) as L.
  exists (T5 ((o + g) / 2) (g + a) (if nle target (target +! u1) then g + a else n) (50 + 2 * b) 10). unfold initialize_temperatures.
  cbn [t_b t_i t_e t_c t_w]. split.
  { unfold temps_are. cbn [T_b T_i T_em T_cyl T_cold t_b t_i t_e t_c t_w].
    split; [apply val_div; [apply val_add; assumption|apply S|lra]|]. split; [exact Hi|]. split; [unfold nwhere; destruct (nle _ _); assumption|].
    split; [apply val_add; [apply S|apply val_mul; [apply S|assumption]]|apply S]. }
  split; [lra|]. split; [lra|]. split; [field|]. split; [lra|]. split; [lra|]. split; [reflexivity|].
  destruct (nle target (target +! u1)) eqn:E; split; intro C; try reflexivity; exfalso.
  - assert (g <= g + a) by (apply L; reflexivity). lra.
  - apply L in C. congruence.
Qed.

(** ** Reported demands *)
Definition raw_dhw (x : hstate) : option Q := if x_ext_cyl x then x_cyl_dhw x else q_dhw (x_demand x).

Lemma times_bool : forall a q (b : bool), val a q -> exists r, val (nmul a (nbool b)) r /\ (b = false -> r == 0) /\ (b = true -> r == q).
Proof.
  intros a q b H. exists (q * (if b then 1 else 0)). split; [apply val_mul; [exact H|apply val_some; reflexivity]|].
  destruct b; split; intro E; try discriminate; ring.
Qed.

Lemma total_sum : forall x a b, k_on (x_controls x) = k_hw (x_controls x) || k_sh (x_controls x) ->
  val (dhw_heat_demand x) a -> val (sh_heat_demand x) b -> val (total_heat_demand x) (a + b).
Proof.
  intros x a b K A B. unfold total_heat_demand. apply (val_eq _ ((if k_on (x_controls x) then 1 else 0) * (a + b))).
  { apply val_mul; [apply val_some; reflexivity|apply val_add; assumption]. }
  rewrite K. destruct (k_hw (x_controls x)) eqn:E1; [cbn; ring|]. destruct (k_sh (x_controls x)) eqn:E2; [cbn; ring|]. cbn [orb].
  assert (a == 0).
  { unfold dhw_heat_demand in A. rewrite E1 in A. destruct (x_ext_cyl x); [destruct (x_cyl_dhw x) as [q|]|destruct (q_dhw (x_demand x)) as [q|]];
      destruct A as (r & [= <-] & A); rewrite <- A; ring. }
  assert (b == 0).
  { unfold sh_heat_demand in B. rewrite E2 in B. destruct (q_sh (x_demand x)) as [q|]; destruct B as (r & [= <-] & B); rewrite <- B; ring. }
  lra.
Qed.

Lemma reported_total : forall x q1 q2, k_on (x_controls x) = k_hw (x_controls x) || k_sh (x_controls x) ->
  val (raw_dhw x) q1 -> val (q_sh (x_demand x)) q2 ->
  exists a b, val (dhw_heat_demand x) a /\ val (sh_heat_demand x) b /\ val (total_heat_demand x) (a + b) /\
    (k_hw (x_controls x) = false -> a == 0) /\ (k_sh (x_controls x) = false -> b == 0) /\
    (k_hw (x_controls x) = true -> a == q1) /\ (k_sh (x_controls x) = true -> b == q2).
Proof.
  intros x q1 q2 K V1 V2. destruct (times_bool _ _ (k_hw (x_controls x)) V1) as (a & A & A0 & A1).
  destruct (times_bool _ _ (k_sh (x_controls x)) V2) as (b & B & B0 & B1).
  assert (A' : val (dhw_heat_demand x) a) by (unfold dhw_heat_demand, raw_dhw in *; destruct (x_ext_cyl x); exact A).
  exists a, b. split; [exact A'|]. split; [exact B|]. split; [apply total_sum; assumption|]. auto.
Qed.

(** What a step leaves behind, whatever the inputs. *)
Lemma five_step_facts : forall p x i x', five_step p x i = Ok x' ->
  k_on (x_controls x') = k_hw (x_controls x') || k_sh (x_controls x') /\
  (forall v, i_cyl i = Some v -> x_ext_cyl x' = negb (is_nan v) /\
     x_cyl_dhw x' = external_cyl_demand (m_cyl (p_system p)) (x_temps x') (w_dhw (i_gains i)) (g_dhw (x_targets x'))).
Proof.
  intros p x i x' H. unfold five_step in H.
  destruct (thermostats_step _ _ _ _ _) as [[g t]|]; cbn [bind] in H; [|discriminate].
  destruct (demand_step _ _ _ _ _ _ _ _ _) as [[q algo]|]; cbn [bind] in H; [|discriminate].
  destruct (set_outputs _ _) as [o|]; cbn [bind] in H; [|discriminate].
  destruct (i_cyl i) as [c|]; injection H as <-; (split; [reflexivity|]); intros v E; [injection E as <-; split; reflexivity|discriminate].
Qed.

Lemma external_reported : forall p x i x' tc P v gw dw, five_step p x i = Ok x' -> i_cyl i = Some (Some tc) ->
  plant_is p P -> temps_are (x_temps x') v -> val (g_dhw (x_targets x')) gw -> val (w_dhw (i_gains i)) dw ->
  exists a, val (dhw_heat_demand x') a /\ (k_hw (x_controls x') = false -> a == 0) /\
    (k_hw (x_controls x') = true -> a == dw * (gw - t_w v) + h_loss (pl_house P) * (t_c v - t_i v)).
Proof.
  intros p x i x' tc P v gw dw H Hc HP Ht Hg Hw. destruct (five_step_facts _ _ _ _ H) as (_ & F). destruct (F _ Hc) as (F1 & F2). cbn in F1.
  assert (V : val (x_cyl_dhw x') (dw * (gw - t_w v) + h_loss (pl_house P) * (t_c v - t_i v))).
  { rewrite F2. unfold external_cyl_demand. destruct HP as (Hh & _). destruct Hh as (_ & _ & _ & _ & _ & _ & _ & _ & Hl & _).
    destruct Ht as (_ & T2 & _ & T4 & T5'). apply val_add; apply val_mul; try assumption; apply val_sub; assumption. }
  destruct (times_bool _ _ (k_hw (x_controls x')) V) as (a & A & A0 & A1). exists a.
  split; [unfold dhw_heat_demand; rewrite F1; exact A|]. auto.
Qed.

Lemma total_reported : forall p x i x', five_step p x i = Ok x' ->
  (forall a b, val (dhw_heat_demand x') a -> val (sh_heat_demand x') b -> val (total_heat_demand x') (a + b)) /\
  (nan (dhw_heat_demand x') \/ nan (sh_heat_demand x') -> nan (total_heat_demand x')).
Proof.
  intros p x i x' H. destruct (five_step_facts _ _ _ _ H) as (K & _). split; [intros; apply total_sum; assumption|].
  unfold nan, total_heat_demand, nmul, nadd, nop. intros [E|E]; rewrite E; [reflexivity|]. destruct (dhw_heat_demand x'); reflexivity.
Qed.
