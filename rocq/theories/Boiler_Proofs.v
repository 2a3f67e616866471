(** * Proofs about the older heating simulators. *)

From Coq Require Import List ZArith QArith Qfield Bool Arith Lia Lqa.
From Coq Require Import ZifyBool ZifyNat.
From Verif Require Import Prelude PreludeFacts SpecBase SpecBaseFacts Sampling_Model Appliance_Model Appliance_Proofs Matrix_Proofs Light_Spec Light_Proofs.
From Verif Require Parse_GroupProofs.
From Verif Require Import Heat_Model Heat_Spec Heat_Proofs Boiler_Model Boiler_Spec.
Import ListNotations.

Open Scope Q_scope.
Ltac Zify.zify_post_hook ::= Z.div_mod_to_equations.

(** ** The clock *)

Lemma minute_half : forall t0 j, on_half_hour t0 ->
  (minute_of (t0 + 60000000 * Z.of_nat j) mod 30 = Z.of_nat (j mod 30))%Z.
Proof.
  intros t0 j (k & s & -> & Hs). unfold minute_of.
  replace (1800000000 * k + s + 60000000 * Z.of_nat j)%Z with (s + (30 * k + Z.of_nat j) * 60000000)%Z by ring.
  rewrite Z.div_add by lia. rewrite (Z.div_small s) by lia. rewrite Z.add_0_l.
  lia.
Qed.

(** ** Updates of one dwelling *)

Lemma update_house_ok : forall table m u h h', update_house table m u h = Ok h' ->
  same_settings h h' /\ w_hwtimer h' = true /\
  (w_delay h <> m -> w_timer h' = w_timer h) /\
  (w_delay h = m -> exists row, at_ table (w_timer h) row /\ picks row u (w_timer h')).
Proof.
  intros table m u h h' H. unfold update_house in H. destruct (Z.eqb_spec (w_delay h) m) as [E|E].
  - destruct (vget table (w_timer h)) as [row|] eqn:Ev; simpl in H; [|discriminate]. apply vget_ok in Ev.
    destruct (mc_one row u) as [t|] eqn:Em; simpl in H; [|discriminate]. injection H as <-.
    split; [repeat split|]. split; [reflexivity|]. split; [congruence|]. intros _. exists row. split; [exact Ev|]. now apply mc_one_picks.
  - simpl in H. injection H as <-. split; [repeat split|]. split; [reflexivity|]. split; [reflexivity|congruence].
Qed.

Lemma picks_length : forall row u k, row <> [] -> picks row u k -> (k < length row)%nat.
Proof.
  intros row u k N [(c & Hc & _)|(-> & _)]; [exact (at_lt _ _ _ _ Hc)|]. destruct row; [congruence|simpl; lia].
Qed.

Lemma update_house_total : forall table m u h, length table = 2%nat -> (forall row, In row table -> length row = 2%nat) -> (w_timer h < 2)%nat ->
  exists h', update_house table m u h = Ok h' /\ (w_timer h' < 2)%nat.
Proof.
  intros table m u h L2 Lr Ht. unfold update_house. destruct (Z.eqb (w_delay h) m).
  - destruct (lt_at _ table (w_timer h)) as [row Hr]; [lia|]. pose proof Hr as Hr'. apply vget_ok in Hr. rewrite Hr. cbn [bind].
    specialize (Lr row (at_in _ _ _ _ Hr')). destruct (mc_one_total row u) as (k & -> & Hk); [destruct row; [discriminate|congruence]|].
    cbn [bind]. eexists. split; [reflexivity|]. simpl. lia.
  - cbn [bind]. eexists. split; [reflexivity|exact Ht].
Qed.

(** ** Whole updates *)

Lemma combine_seq_at : forall A (l : list A) i x, at_ l i x -> at_ (combine (seq 0 (length l)) l) i (i, x).
Proof.
  intros A l i x H. unfold at_. rewrite Parse_GroupProofs.combine_nth_error. pose proof (at_lt _ _ _ _ H).
  assert (S : at_ (seq 0 (length l)) i i) by (apply at_seq; lia). unfold at_ in *. rewrite S, H. reflexivity.
Qed.

Lemma update_controls_ok : forall c now u c', update_controls c now u = Ok c' ->
  let m := (minute_of now mod 30)%Z in
  x_tables c' = x_tables c /\ length (x_houses c') = length (x_houses c) /\
  exists table, x_cur c' = Some table /\
    (m = 0%Z -> at_ (x_tables c) (x_seen c mod length (x_tables c)) table /\ x_seen c' = S (x_seen c)) /\
    (m <> 0%Z -> x_cur c = Some table /\ x_seen c' = x_seen c) /\
    forall i h, at_ (x_houses c) i h -> exists h', at_ (x_houses c') i h' /\ update_house table (m - 15) (u i) h = Ok h'.
Proof.
  intros c now u c' H m. unfold update_controls in H. fold m in H.
  assert (G : forall seen table, bind (mapM (fun ih : nat * dwelling => update_house table (m - 15) (u (fst ih)) (snd ih))
                 (combine (seq 0 (length (x_houses c))) (x_houses c))) (fun hs => Ok (Ctl (x_tables c) seen (Some table) hs)) = Ok c' ->
    x_tables c' = x_tables c /\ length (x_houses c') = length (x_houses c) /\ x_cur c' = Some table /\ x_seen c' = seen /\
    forall i h, at_ (x_houses c) i h -> exists h', at_ (x_houses c') i h' /\ update_house table (m - 15) (u i) h = Ok h').
  { intros seen table E.
    match type of E with bind ?a _ = _ => destruct a as [hs|] eqn:Em end; simpl in E; [|discriminate]. injection E as <-. simpl.
    destruct (mapM_ok _ _ _ _ _ Em) as [L K]. rewrite combine_length, seq_length, Nat.min_id in L.
    split; [reflexivity|]. split; [exact L|]. split; [reflexivity|]. split; [reflexivity|]. intros i h Hi.
    destruct (K i (i, h) (combine_seq_at _ _ _ _ Hi)) as (h' & H1 & H2). exists h'. split; [exact H1|exact H2]. }
  destruct (Z.eqb_spec m 0) as [E0|E0].
  - destruct (nth_error (x_tables c) (x_seen c mod length (x_tables c))) as [table|] eqn:Et; cbn [bind snd fst] in H; [|discriminate].
    destruct (G _ _ H) as (G1 & G2 & G3 & G4 & G5). split; [exact G1|]. split; [exact G2|]. exists table. split; [exact G3|]. split; [auto|]. split; [congruence|exact G5].
  - cbn [bind snd fst] in H. destruct (x_cur c) as [table|] eqn:Ec; [|discriminate].
    destruct (G _ _ H) as (G1 & G2 & G3 & G4 & G5). split; [exact G1|]. split; [exact G2|]. exists table. split; [exact G3|]. split; [congruence|]. split; [auto|exact G5].
Qed.

Lemma update_controls_total : forall c now u, two_states (x_tables c) -> (forall h, In h (x_houses c) -> (w_timer h < 2)%nat) ->
  ((minute_of now mod 30 = 0)%Z \/ exists table, x_cur c = Some table /\ In table (x_tables c)) ->
  exists c', update_controls c now u = Ok c' /\ (forall h, In h (x_houses c') -> (w_timer h < 2)%nat) /\
    exists table, x_cur c' = Some table /\ In table (x_tables c).
Proof.
  intros c now u [N T] Ht Hm. unfold update_controls. set (m := (minute_of now mod 30)%Z) in *.
  assert (G : forall seen table, In table (x_tables c) -> exists c', bind (mapM (fun ih : nat * dwelling => update_house table (m - 15) (u (fst ih)) (snd ih))
                 (combine (seq 0 (length (x_houses c))) (x_houses c))) (fun hs => Ok (Ctl (x_tables c) seen (Some table) hs)) = Ok c' /\
      (forall h, In h (x_houses c') -> (w_timer h < 2)%nat) /\ x_cur c' = Some table).
  { intros seen table Hin. destruct (T table Hin) as [T1 T2].
    match goal with |- context [bind ?a _] => assert (M : exists hs, a = Ok hs) end.
    { apply mapM_total. intros [i h] Hi. apply in_combine_r in Hi. destruct (update_house_total table (m - 15) (u i) h T1 T2 (Ht h Hi)) as (h' & E & _). cbn [fst snd]. eauto. }
    destruct M as [hs Eh]. rewrite Eh. cbn [bind]. eexists. split; [reflexivity|]. simpl. split; [|reflexivity].
    intros h Hh. apply in_at in Hh. destruct Hh as [i Hi]. destruct (mapM_ok _ _ _ _ _ Eh) as [L K].
    destruct (lt_at _ (combine (seq 0 (length (x_houses c))) (x_houses c)) i) as [[i' h0] Hi0]. { apply at_lt in Hi. lia. }
    destruct (K _ _ Hi0) as (h' & H1 & H2). pose proof (at_fun _ _ _ _ _ Hi H1) as <-. cbn [fst snd] in H2.
    assert (Hin0 : In h0 (x_houses c)) by (eapply in_combine_r; eapply at_in; exact Hi0).
    destruct (update_house_total table (m - 15) (u i') h0 T1 T2 (Ht h0 Hin0)) as (h'' & E & Hl). rewrite E in H2. injection H2 as <-. exact Hl. }
  destruct (Z.eqb_spec m 0) as [E0|E0].
  - destruct (lt_at _ (x_tables c) (x_seen c mod length (x_tables c))) as [table Htab].
    { apply Nat.mod_upper_bound. destruct (x_tables c); [congruence|simpl; lia]. }
    unfold at_ in Htab. rewrite Htab. cbn [bind snd fst]. pose proof (nth_error_In _ _ Htab) as Hin.
    destruct (G (S (x_seen c)) table Hin) as (c' & E & H1 & H2). exists c'. split; [exact E|]. split; [exact H1|]. exists table. auto.
  - destruct Hm as [Hm|(table & Hc & Hin)]; [congruence|]. cbn [bind snd fst]. rewrite Hc.
    destruct (G (x_seen c) table Hin) as (c' & E & H1 & H2). exists c'. split; [exact E|]. split; [exact H1|]. exists table. auto.
Qed.

(** ** The timers over a simulation *)

(** After n minutes. *)
Definition reached (c : ctl) (t0 : Z) (u : nat -> nat -> Q) (n : nat) (c' : ctl) : Prop :=
  x_tables c' = x_tables c /\ length (x_houses c') = length (x_houses c) /\
  (forall h, In h (x_houses c') -> (w_timer h < 2)%nat) /\
  x_seen c' = (if (n mod 30 =? 0)%nat then n / 30 else S (n / 30))%nat /\
  ((n mod 30 <> 0)%nat -> exists table, x_cur c' = Some table /\ at_ (x_tables c) ((n / 30) mod length (x_tables c)) table) /\
  forall i h, at_ (x_houses c) i h -> exists h', at_ (x_houses c') i h' /\ same_settings h h' /\
    w_hwtimer h' = (w_hwtimer h || negb (n =? 0)%nat) /\
    timer_path (x_tables c) (fun k => u k i) (Z.to_nat (w_delay h + 15)) (w_timer h)
      (if (Z.to_nat (w_delay h + 15) <? n mod 30)%nat then S (n / 30) else n / 30)%nat (w_timer h').

Lemma minutes_reached : forall c t0 u n, two_states (x_tables c) -> (forall h, In h (x_houses c) -> proper h) -> on_half_hour t0 -> x_seen c = 0%nat ->
  exists c', minutes c t0 u n = Ok c' /\ reached c t0 u n c'.
Proof.
  intros c t0 u n HT HP H0 Hs. induction n as [|n (c1 & E1 & R)].
  - exists c. split; [reflexivity|]. split; [reflexivity|]. split; [reflexivity|]. split; [intros h Hh; apply (HP h Hh)|].
    split; [exact Hs|]. split; [intro N; exfalso; apply N; reflexivity|]. intros i h Hi. exists h. split; [exact Hi|]. split; [repeat split|].
    split; [simpl; rewrite orb_false_r; reflexivity|].
    change (0 mod 30)%nat with 0%nat. change (0 / 30)%nat with 0%nat. destruct (Nat.ltb_spec (Z.to_nat (w_delay h + 15)) 0); [lia|]. constructor.
  - destruct R as (R1 & R2 & R3 & R4 & R5 & R6). cbn [minutes]. rewrite E1. cbn [bind].
    pose proof (minute_half t0 n H0) as Hm.
    assert (HT1 : two_states (x_tables c1)) by (rewrite R1; exact HT).
    destruct (update_controls_total c1 (t0 + 60000000 * Z.of_nat n) (u n) HT1 R3) as (c2 & E2 & Ht2 & _).
    { rewrite Hm. destruct (Nat.eq_dec (n mod 30) 0) as [E|E]; [left; rewrite E; reflexivity|right].
      destruct (R5 E) as (table & T1 & T2). exists table. split; [exact T1|]. rewrite R1. eapply at_in; eauto. }
    exists c2. split; [exact E2|].
    destruct (update_controls_ok _ _ _ _ E2) as (U1 & U2 & table & U3 & U4 & U5 & U6). rewrite Hm in U4, U5, U6.
    assert (Tab : at_ (x_tables c) ((n / 30) mod length (x_tables c)) table /\ x_seen c2 = S (n / 30)).
    { destruct (Nat.eq_dec (n mod 30) 0) as [E|E].
      - destruct (U4 ltac:(lia)) as [A1 A2]. rewrite R4, R1, E in A1. rewrite R4, E in A2. simpl in A1, A2. auto.
      - destruct (U5 ltac:(lia)) as [A1 A2]. destruct (R5 E) as (table' & T1 & T2). rewrite A1 in T1. injection T1 as <-.
        rewrite R4 in A2. apply Nat.eqb_neq in E. rewrite E in A2. auto. }
    destruct Tab as [Tab Seen].
    assert (Cases : (S n mod 30 = S (n mod 30) /\ S n / 30 = n / 30 /\ n mod 30 < 29)%nat \/ (S n mod 30 = 0 /\ S n / 30 = S (n / 30) /\ n mod 30 = 29)%nat).
    { clear. lia. }
    assert (Hr : (n mod 30 < 30)%nat) by (apply Nat.mod_upper_bound; lia).
    split; [congruence|]. split; [congruence|]. split; [exact Ht2|].
    split. { rewrite Seen. destruct Cases as [(C1 & C2 & C3)|(C1 & C2 & C3)]; rewrite C1, C2; reflexivity. }
    split. { intros N. destruct Cases as [(C1 & C2 & C3)|(C1 & C2 & C3)]; [|congruence]. rewrite C2. exists table. auto. }
    intros i h Hi. destruct (R6 i h Hi) as (h1 & A1 & A2 & A3 & A4). destruct (U6 i h1 A1) as (h2 & B1 & B2).
    destruct (update_house_ok _ _ _ _ _ B2) as (S2 & W2 & T1 & T2).
    destruct A2 as (S11 & S12 & S13 & S14 & S15 & S16). destruct S2 as (S21 & S22 & S23 & S24 & S25 & S26).
    exists h2. split; [exact B1|]. split; [repeat split; congruence|]. split; [rewrite W2; simpl; rewrite orb_true_r; reflexivity|].
    destruct (HP h (at_in _ _ _ _ Hi)) as [_ Hd]. set (d := Z.to_nat (w_delay h + 15)) in *.
    assert (Hd' : (d < 30)%nat) by (unfold d; lia).
    destruct (Nat.eq_dec d (n mod 30)) as [Ed|Ed].
    + (* its minute *)
      destruct (T2 ltac:(unfold d in Ed; lia)) as (row & Hrow & Hp).
      assert (Eold : (d <? n mod 30)%nat = false) by (apply Nat.ltb_ge; lia). rewrite Eold in A4.
      assert (Enew : (if (d <? S n mod 30)%nat then S (S n / 30) else (S n / 30))%nat = S (n / 30)).
      { destruct Cases as [(C1 & C2 & C3)|(C1 & C2 & C3)]; rewrite C1, C2.
        - assert (L : (d <? S (n mod 30))%nat = true) by (apply Nat.ltb_lt; lia). rewrite L. reflexivity.
        - assert (L : (d <? 0)%nat = false) by (apply Nat.ltb_ge; lia). rewrite L. reflexivity. }
      rewrite Enew. apply (path_next _ _ _ _ _ (w_timer h1) _ table row); [exact A4|exact Tab|exact Hrow|].
      replace (30 * (n / 30) + d)%nat with n; [exact Hp|]. rewrite Ed. exact (Nat.div_mod n 30 ltac:(lia)).
    + rewrite T1 by (unfold d in Ed; lia).
      assert (Enew : (if (d <? S n mod 30)%nat then S (S n / 30) else (S n / 30))%nat = (if (d <? n mod 30)%nat then S (n / 30) else n / 30)%nat).
      { destruct Cases as [(C1 & C2 & C3)|(C1 & C2 & C3)]; rewrite C1, C2.
        - destruct (Nat.ltb_spec d (S (n mod 30))), (Nat.ltb_spec d (n mod 30)); try reflexivity; lia.
        - destruct (Nat.ltb_spec d 0), (Nat.ltb_spec d (n mod 30)); try reflexivity; lia. }
      rewrite Enew. exact A4.
Qed.

(** ** Thermostats *)

Lemma old_thermostat_band : forall on t set band, band_rule on t set band (old_thermostat on t (Some set) band).
Proof.
  intros on t set band. unfold band_rule, old_thermostat. simpl. rewrite orb_true_iff, !andb_true_iff, Qltb_lt, Qle_bool_iff, negb_true_iff. reflexivity.
Qed.

Lemma old_thermostat_none : forall on t band, old_thermostat on t None band = false.
Proof. intros on t band. unfold old_thermostat. simpl. rewrite !andb_false_r. reflexivity. Qed.

Lemma life_ok : forall l h h', life h l = Ok h' ->
  w_delay h' = w_delay h /\ w_home h' = w_home h /\ w_water h' = w_water h /\ w_emit h' = w_emit h /\ w_combi h' = w_combi h.
Proof.
  induction l as [|[a|table m u] l IH]; intros h h' H; simpl in H.
  - injection H as <-. repeat split.
  - apply IH in H. exact H.
  - destruct (update_house table m u h) as [h1|] eqn:E; simpl in H; [|discriminate]. apply IH in H.
    destruct (update_house_ok _ _ _ _ _ E) as ((S1 & S2 & S3 & S4 & S5 & S6) & _). destruct H as (H1 & H2 & H3 & H4 & H5).
    repeat split; congruence.
Qed.

(** ** Heating system *)

Lemma old_output_val : forall heat k tw ts H x y, val heat H -> 0 <= H -> val tw x -> val ts y ->
  exists w s, val (o_dhw (old_output heat k tw ts)) w /\ val (o_sh (old_output heat k tw ts)) s /\
    val (o_total (old_output heat k tw ts)) (s + w) /\ 0 <= w /\ 0 <= s /\ s + w <= H /\
    (k_on k = false -> w == 0 /\ s == 0) /\ (k_hw k = false -> w == 0) /\
    (k_on k = true -> k_hw k = true -> limited x H w) /\
    (k_on k = true -> k_hw k = true -> k_sh k = true -> limited y (H - w) s) /\
    (k_on k = true -> k_hw k = true -> k_sh k = false -> s == 0) /\
    (k_on k = true -> k_hw k = false -> limited y H s).
Proof.
  intros heat k tw ts H x y Hh P Hx Hy.
  destruct (clip_val tw heat x H Hx Hh) as (w & Hw & _ & Gw). destruct (Gw P) as [Lw Rw].
  destruct (clip_val ts heat y H Hy Hh) as (s & Hs & _ & Gs). destruct (Gs P) as [Ls Rs].
  destruct (clip_val ts (heat -! nclip tw (Some 0) heat) y (H - w) Hy (val_sub _ _ _ _ Hh Hw)) as (r & Hr & _ & Gr).
  destruct (Gr ltac:(lra)) as [Lr Rr].
  assert (Z0 : val (Some 0) 0) by (apply val_some; reflexivity).
  unfold old_output. cbn [o_dhw o_sh o_total].
  destruct (k_on k), (k_hw k), (k_sh k); cbn [andb negb nwhere].
  - exists w, r. repeat split; try assumption; try congruence; try lra; [now apply val_add|apply Lw|apply Lw|apply Lw|apply Lr|apply Lr|apply Lr].
  - exists w, 0. repeat split; try assumption; try congruence; try lra; [now apply val_add|apply Lw|apply Lw|apply Lw].
  - exists 0, s. repeat split; try assumption; try congruence; try lra; [now apply val_add|apply Ls|apply Ls|apply Ls].
  - exists 0, s. repeat split; try assumption; try congruence; try lra; [now apply val_add|apply Ls|apply Ls|apply Ls].
  - exists 0, 0. repeat split; try assumption; try congruence; try lra; now apply val_add.
  - exists 0, 0. repeat split; try assumption; try congruence; try lra; now apply val_add.
  - exists 0, 0. repeat split; try assumption; try congruence; try lra; now apply val_add.
  - exists 0, 0. repeat split; try assumption; try congruence; try lra; now apply val_add.
Qed.

Lemma old_water_val : forall dt c t set dhw q cc' hl v w g, val dt q -> 0 < q -> val (C_cyl c) cc' -> val (H_loss c) hl -> temps_are t v -> val set g -> val dhw w ->
  val (old_target_water dt c t set dhw) (cc' / q * (g - t_c v) + w * (t_c v - t_w v) + hl * (t_c v - t_i v)).
Proof.
  intros dt c t set dhw q cc' hl v w g Hq Pq Hc Hl (T1 & T2 & T3 & T4 & T5') Hg Hw. unfold old_target_water.
  assert (N : ~ q == 0) by lra.
  repeat first [eassumption | apply val_add | apply val_sub | apply val_mul | apply (val_div _ _ _ _ Hc Hq N)].
Qed.

Lemma old_space_val : forall dt b nominal t q ce' he v g, val dt q -> 0 < q -> val (C_em b) ce' -> val (H_em b) he -> temps_are t v -> val nominal g ->
  val (old_target_space dt b nominal t) (ce' / q * (g + 5 - t_e v) + he * (t_e v - t_i v)).
Proof.
  intros dt b nominal t q ce' he v g Hq Pq Hc Hl (T1 & T2 & T3 & T4 & T5') Hg. unfold old_target_space.
  assert (N : ~ q == 0) by lra. assert (F : val (Some 5) 5) by (apply val_some; reflexivity).
  repeat first [eassumption | apply val_add | apply val_sub | apply val_mul | apply (val_div _ _ _ _ Hc Hq N)].
Qed.

Lemma old_update_step : forall dt b c t w o, old_update dt b c t w o = building_step dt b c t w o.
Proof. reflexivity. Qed.

(** A cylinder heated for [goal] does not get hotter than what is around. *)
Lemma cylinder_stays : forall dt h d t t' goal B, 0 < dt -> house_ok h -> short_step dt h (v_draw d) -> heat_flows dt h d t t' ->
  let q := cc h / dt * (goal - t_c t) + v_draw d * (t_c t - t_w t) + h_loss h * (t_c t - t_i t) in
  (v_dhw d <= q \/ v_dhw d == 0) -> goal < B -> t_c t < B -> t_i t < B -> t_w t < B -> t_c t' < B.
Proof.
  intros dt h d t t' goal B Pdt Hh Hs Hf q Hq Hg Hc Hi Hw. destruct Hq as [Hq|Hq].
  - destruct (cylinder_reach dt h d t t' goal Pdt Hh Hf) as (_ & K & _). specialize (K Hq). lra.
  - set (M := qmax (t_c t) (qmax (t_i t) (t_w t))).
    destruct (qmax_spec (t_c t) (qmax (t_i t) (t_w t))) as (A1 & A2 & A3). destruct (qmax_spec (t_i t) (t_w t)) as (B1 & B2 & B3). fold M in A1, A2, A3.
    assert (HM : M < B) by (destruct A3, B3; lra). enough (t_c t' <= M) by lra.
    assert (L1 : t_i t <= M) by lra. assert (L2 : t_w t <= M) by lra. clearbody M. clear A2 A3 B1 B2 B3 HM Hg Hc Hi Hw B.
    destruct Hh as (P1 & P2 & P3 & P4 & P5 & P6 & P7 & P8 & P9). destruct Hs as (S0 & S1 & S2 & S3 & S4 & S5). destruct Hf as (_ & _ & _ & F & _).
    cbv zeta in F. rewrite Hq in F. clear q Hq S2 S3 S4 P1 P2 P3 P5 P6 P7 P8.
    apply (pos_cancel (cc h)); [exact P4|].
    assert (X1 : 0 <= (cc h - dt * (h_loss h + v_draw d)) * (M - t_c t)) by (apply Qmult_le_0_compat; lra).
    assert (X2 : 0 <= dt * h_loss h * (M - t_i t)) by (apply Qmult_le_0_compat; [apply Qmult_le_0_compat|]; lra).
    assert (X3 : 0 <= dt * v_draw d * (M - t_w t)) by (apply Qmult_le_0_compat; [apply Qmult_le_0_compat|]; lra).
    lra.
Qed.

(** ** Fuel *)

Lemma old_fuel_types_in : forall l f, In f (old_fuel_types l) <-> exists h, In h l /\ y_fuel (f_sys h) = f.
Proof.
  induction l as [|h t IH]; intro f; simpl; [split; [tauto|intros (h & [] & _)]|].
  rewrite filter_In, IH, negb_true_iff, String.eqb_neq. split.
  - intros [<-|[(h' & H1 & H2) _]]; eauto.
  - intros (h' & [<-|H1] & H2); [left; exact H2|]. destruct (String.string_dec f (y_fuel (f_sys h))) as [E|E]; [left; congruence|right]. split; eauto.
Qed.

Lemma old_fuel_types_nodup : forall l, NoDup (old_fuel_types l).
Proof.
  induction l as [|h t IH]; simpl; constructor; [|now apply NoDup_filter].
  rewrite filter_In, negb_true_iff, String.eqb_neq. tauto.
Qed.

Lemma mapM_fails : forall A B (f : A -> result B) l e, mapM f l = Err e -> exists x, In x l /\ f x = Err e.
Proof.
  intros A B f l e. induction l as [|x l IH]; simpl; intro H; [discriminate|].
  destruct (f x) as [y|e'] eqn:E; simpl in H.
  - destruct (mapM f l); simpl in H; [discriminate|]. destruct (IH H) as (z & H1 & H2). eauto.
  - injection H as ->. eauto.
Qed.

Lemma same_places : forall A (l m : list A), length l = length m -> (forall i x y, at_ l i x -> at_ m i y -> x = y) -> l = m.
Proof.
  intros A l. induction l as [|x l IH]; intros [|y m] L H; try discriminate; [reflexivity|].
  f_equal; [exact (H 0%nat x y eq_refl eq_refl)|]. apply IH; [injection L as L; exact L|]. intros i a b Ha Hb. exact (H (S i) a b Ha Hb).
Qed.

Lemma Ok_inj : forall A (x y : A), Ok x = Ok y -> y = x.
Proof. congruence. Qed.
