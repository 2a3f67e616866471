(** * Proofs about the probabilities of the lighting. *)

From Coq Require Import List ZArith QArith Qminmax Bool Lia Lqa Arith.
From Verif Require Import Prelude PreludeFacts SpecBase SpecBaseFacts Sampling_Spec Sampling_Proofs Activity_Spec Appliance_Spec Light_Model Light_Spec Light_Proofs Law_Spec Law_Base Fit_Proofs LightLaw_Spec.
Import ListNotations.
Local Open Scope Q_scope.

(** ** One number *)

Lemma clip_range : forall x, 0 <= clip x /\ clip x <= 1.
Proof.
  intros x. unfold clip. split; [apply Q.le_max_l|]. apply Q.max_lub; [lra|]. apply Q.le_min_l.
Qed.

Lemma clip_below : forall x u, 0 <= u -> u < 1 -> (u < clip x <-> u < x).
Proof.
  intros x u H0 H1. unfold clip. split; intro H.
  - apply Q.max_lt_iff in H. destruct H as [H|H]; [lra|]. apply Q.min_glb_lt_iff in H. tauto.
  - apply Q.max_lt_iff. right. apply Q.min_glb_lt; assumption.
Qed.

Lemma clip_id : forall x, 0 <= x -> x <= 1 -> clip x == x.
Proof. intros x H0 H1. unfold clip. rewrite (Q.min_r 1 x) by assumption. apply Q.max_r. assumption. Qed.

Lemma prob_below : forall x, has_probability 1 (fun us => exists u, us = [u] /\ u < x) (clip x).
Proof.
  intros x. pose proof (clip_range x) as [C0 C1]. eapply prob_ext; [apply (prob_interval (fun us => exists u, us = [u] /\ u < x) 0 (clip x))| |].
  - lra.
  - exact C0.
  - exact C1.
  - intros u U0 U1. rewrite (clip_below x u U0 U1). split; [intros (v & [= <-] & H); auto|intros [_ H]; eauto].
  - reflexivity.
  - ring.
Qed.

Lemma prob_above : forall x, has_probability 1 (fun us => exists u, us = [u] /\ x <= u) (1 - clip x).
Proof.
  intros x. pose proof (clip_range x) as [C0 C1]. apply prob_interval; auto; [lra|]. intros u U0 U1. pose proof (clip_below x u U0 U1) as E. split.
  - intros (v & [= <-] & H). split; [|exact U1]. apply Qnot_lt_le. intro L. apply E in L. lra.
  - intros [H _]. exists u. split; auto. apply Qnot_lt_le. intro L. apply E in L. lra.
Qed.

(** ** One step *)

Definition strength (par : lpar) (b : bulb) (h : nat) (v : env) : Q := nth (Z.to_nat (nth h (fst v) 0%Z)) (p_eff par) 0 * b_use b * p_cal par.

Definition strikes (par : lpar) (b : bulb) (h : nat) (v : env) (five on : Q) : Prop :=
  (snd v < b_thr b \/ five < 5 # 100) /\ on < strength par b h v.

Lemma draws_two : forall us, draws 2 us -> exists f o, us = [f; o].
Proof. intros us [H _]. destruct us as [|f [|o [|]]]; try discriminate. eauto. Qed.

Definition dusk (b : bulb) (v : env) : Q := if Qlt_le_dec (snd v) (b_thr b) then 1 else 1 # 20.

Lemma prob_dusk : forall b v, has_probability 1 (fun us => exists f, us = [f] /\ (snd v < b_thr b \/ f < 5 # 100)) (dusk b v).
Proof.
  intros b v. unfold dusk. destruct (Qlt_le_dec (snd v) (b_thr b)) as [H|H].
  - apply prob_always. intros us [L _]. destruct us as [|f [|]]; try discriminate. eauto.
  - eapply prob_ext; [apply (prob_below (5 # 100))| |vm_compute; reflexivity].
    intros us _. split; intros (u & E & P); exists u; split; auto. destruct P as [P|P]; auto. lra.
Qed.

Lemma prob_light : forall b v, has_probability 1 (fun us => exists f, us = [f] /\ ~ (snd v < b_thr b \/ f < 5 # 100)) (1 - dusk b v).
Proof.
  intros b v. unfold dusk. destruct (Qlt_le_dec (snd v) (b_thr b)) as [H|H].
  - eapply prob_ext; [apply (prob_never 1 (fun _ => False)); auto| |ring]. intros us _. split; [tauto|]. intros (f & _ & N). apply N. auto.
  - eapply prob_ext; [apply (prob_above (5 # 100))| |vm_compute; reflexivity].
    intros us _. split; intros (u & E & P); exists u; split; auto.
    + intros [N|N]; lra.
    + apply Qnot_lt_le. intro N. apply P. auto.
Qed.

Lemma chance_split : forall par b h v, chance par b h v = dusk b v * clip (strength par b h v).
Proof. reflexivity. Qed.

Lemma prob_strikes : forall par b h v, has_probability 2 (fun us => exists f o, us = [f; o] /\ strikes par b h v f o) (chance par b h v).
Proof.
  intros par b h v. rewrite chance_split. eapply prob_ext; [apply (prob_both 1 1 _ _ _ _ (prob_dusk b v) (prob_below (strength par b h v)))| |reflexivity].
  intros us U. destruct (draws_two us U) as (f & o & ->). cbn [firstn skipn]. split.
  - intros [(f' & [= <-] & H) (o' & [= <-] & H')]. exists f, o. split; auto. split; auto.
  - intros (f' & o' & [= <- <-] & H & H'). split; eauto.
Qed.

Lemma prob_misses : forall par b h v, has_probability 2 (fun us => exists f o, us = [f; o] /\ ~ strikes par b h v f o) (1 - chance par b h v).
Proof.
  intros par b h v. rewrite chance_split. eapply prob_ext.
  - apply prob_either.
    + apply (prob_both 1 1 _ (fun us => True) _ 1 (prob_light b v)). apply prob_always. auto.
    + apply (prob_both 1 1 _ _ _ _ (prob_dusk b v) (prob_above (strength par b h v))).
    + intros us U [(f & E & N) _] [(f' & E' & P) _]. rewrite E in E'. injection E' as <-. auto.
  - intros us U. destruct (draws_two us U) as (f & o & ->). cbn [firstn skipn]. unfold strikes. split.
    + intros [[(f' & [= <-] & N) _]|[(f' & [= <-] & P) (o' & [= <-] & N)]]; exists f, o; split; auto.
      * tauto.
      * intros [_ L]. lra.
    + intros (f' & o' & [= <- <-] & N). destruct (Qlt_le_dec (snd v) (b_thr b)) as [D|D]; [|destruct (Qlt_le_dec f (5 # 100)) as [F|F]].
      * right. split; [exists f; auto|]. exists o. split; auto. apply Qnot_lt_le. intro L. apply N. auto.
      * right. split; [exists f; auto|]. exists o. split; auto. apply Qnot_lt_le. intro L. apply N. auto.
      * left. split; auto. exists f. split; auto. intros [L|L]; lra.
  - ring.
Qed.

(** ** Several steps *)

Fixpoint none_strike (par : lpar) (b : bulb) (h : nat) (vs : list env) (us : list Q) : Prop :=
  match vs, us with
  | [], [] => True
  | v :: vs, f :: o :: us => ~ strikes par b h v f o /\ none_strike par b h vs us
  | _, _ => False
  end.

Fixpoint last_strikes (par : lpar) (b : bulb) (h : nat) (vs : list env) (us : list Q) : Prop :=
  match vs, us with
  | [v], [f; o] => strikes par b h v f o
  | v :: vs, f :: o :: us => ~ strikes par b h v f o /\ last_strikes par b h vs us
  | _, _ => False
  end.

Lemma prob_none : forall par b h vs, has_probability (2 * length vs) (none_strike par b h vs) (none_of (map (chance par b h) vs)).
Proof.
  intros par b h vs. induction vs as [|v vs IH].
  - apply prob_always. intros us [L _]. destruct us; [exact I|discriminate].
  - replace (2 * length (v :: vs))%nat with (2 + 2 * length vs)%nat by (cbn [length]; lia).
    eapply prob_ext; [apply (prob_both 2 _ _ _ _ _ (prob_misses par b h v) IH)| |reflexivity].
    intros us U. destruct us as [|f [|o us]]; [destruct U as [U _]; discriminate|destruct U as [U _]; discriminate|]. cbn [firstn skipn none_strike]. split.
    + intros [(f' & o' & [= <- <-] & N) R]. auto.
    + intros [N R]. split; eauto.
Qed.

Lemma prob_last : forall par b h vs, vs <> [] -> has_probability (2 * length vs) (last_strikes par b h vs) (at_last (map (chance par b h) vs)).
Proof.
  intros par b h vs. induction vs as [|v vs IH]; intro N; [congruence|]. destruct vs as [|w vs].
  - eapply prob_ext; [apply (prob_strikes par b h v)| |unfold at_last, none_of; cbn; ring].
    intros us U. destruct (draws_two us U) as (f & o & ->). cbn [last_strikes]. split; [intros (f' & o' & [= <- <-] & H); auto|eauto].
  - replace (2 * length (v :: w :: vs))%nat with (2 + 2 * length (w :: vs))%nat by (cbn [length]; lia).
    eapply prob_ext; [apply (prob_both 2 _ _ _ _ _ (prob_misses par b h v) (IH ltac:(discriminate)))| |].
    + intros us U. destruct us as [|f [|o us]]; [destruct U as [U _]; discriminate|destruct U as [U _]; discriminate|]. cbn [firstn skipn].
      change (last_strikes par b h (v :: w :: vs) (f :: o :: us)) with (~ strikes par b h v f o /\ last_strikes par b h (w :: vs) us). split.
      * intros [(f' & o' & [= <- <-] & M) R]. auto.
      * intros [M R]. split; eauto.
    + unfold at_last, none_of. change (removelast (map (chance par b h) (v :: w :: vs))) with (chance par b h v :: removelast (map (chance par b h) (w :: vs))).
      change (last (map (chance par b h) (v :: w :: vs)) 0) with (last (map (chance par b h) (w :: vs)) 0). cbn [map product]. ring.
Qed.

(** ** The simulator *)

Lemma drawn_strikes : forall par i h j b v, in_occ i = fst v -> in_irr i = snd v -> someone h v -> (exists n, possible par n v) ->
  (drawn_on par i h j b <-> strikes par b h v (d_five (in_d i) h j) (d_on (in_d i) h j)).
Proof.
  intros par i h j b v Ho Hi Hs [n [Hl Hp]]. unfold drawn_on, strikes, strength. rewrite Ho, Hi. unfold someone in Hs.
  assert (Hh : (h < length (fst v))%nat). { destruct (Nat.lt_ge_cases h (length (fst v))); auto. rewrite nth_overflow in Hs by assumption. lia. }
  destruct (lt_at _ (fst v) h Hh) as [m Hm]. assert (Em : nth h (fst v) 0%Z = m) by (apply nth_error_nth; exact Hm).
  pose proof (Hp h m Hm) as Rm. destruct (lt_at _ (p_eff par) (Z.to_nat m)) as [e He]; [lia|].
  assert (Ee : nth (Z.to_nat m) (p_eff par) 0 = e) by (apply nth_error_nth; exact He). rewrite Em, Ee. split.
  - intros [H (m' & e' & H1 & H2 & H3)]. split; auto. rewrite (at_fun _ _ _ _ _ H1 Hm) in H2. rewrite (at_fun _ _ _ _ _ H2 He) in H3. exact H3.
  - intros [H H3]. split; auto. exists m, e. auto.
Qed.

Lemma same_strikes : forall par b b' h v f o, same_bulb b b' -> (strikes par b' h v f o <-> strikes par b h v f o).
Proof. intros par b b' h v f o (E1 & E2 & E3). unfold strikes, strength. rewrite E2, E3. tauto. Qed.

Lemma at2_fun : forall A (m : list (list A)) h j x y, at2 m h j x -> at2 m h j y -> x = y.
Proof. intros A m h j x y (r & H1 & H2) (r' & H3 & H4). rewrite (at_fun _ _ _ _ _ H3 H1) in H4. exact (at_fun _ _ _ _ _ H2 H4). Qed.

Lemma lit_left : forall s h j b, bulb_at s h j b -> (lit s h j <-> (0 < b_left b)%Z).
Proof.
  intros s h j b B. split.
  - intros (b' & B' & L). destruct B as (_ & _ & _ & G1). destruct B' as (_ & _ & _ & G2). rewrite (at2_fun _ _ _ _ _ _ G1 G2). exact L.
  - intro L. exists b. auto.
Qed.

Lemma picks_lt : forall cdf e k, cdf <> [] -> picks cdf e k -> (k < length cdf)%nat.
Proof.
  intros cdf e k N [(c & H & _)|[-> _]]; [apply at_lt in H; auto|]. destruct cdf; [congruence|cbn; lia].
Qed.

Section Sim.
  Variables (par : lpar) (n k h j : nat).
  Hypothesis good : good_durations par.

  Lemma step_dark : forall s b i v, lights n k s -> bulb_at s h j b -> (b_left b = 0 \/ b_left b = 1)%Z -> possible par n v -> someone h v ->
    in_occ i = fst v -> in_irr i = snd v -> 0 <= d_pos (in_d i) h j ->
    exists s1 b1, light_do par s i = Ok s1 /\ lights n k s1 /\ bulb_at s1 h j b1 /\ same_bulb b b1 /\
      (lit s1 h j <-> strikes par b h v (d_five (in_d i) h j) (d_on (in_d i) h j)) /\ (~ lit s1 h j -> b_left b1 = 0%Z) /\
      (lit s1 h j -> exists q, drawn_duration par i h j q /\ int_part q (b_left b1)).
  Proof.
    intros s b i v Hs Hb Hz Hp Hv Ho Hi Hd. destruct good as (G1 & G2 & G3 & G4).
    destruct (light_step_total n k par s i Hs) as [s1 E]; [rewrite Ho; apply Hp|rewrite Ho; apply Hp|auto|auto|auto|].
    destruct (light_step_lights _ _ _ _ _ _ Hs E) as [Hs1 _].
    assert (Hh : (h < length (fst v))%nat). { destruct (Nat.lt_ge_cases h (length (fst v))); auto. unfold someone in Hv. rewrite nth_overflow in Hv by assumption. lia. }
    destruct (lt_at _ (fst v) h Hh) as [m Hm]. assert (Em : nth h (fst v) 0%Z = m) by (apply nth_error_nth; exact Hm). unfold someone in Hv. rewrite Em in Hv.
    destruct (light_step_at par s i s1 h j b m E Hb) as (b1 & B1 & B2 & _ & _ & B3 & B4); [rewrite Ho; exact Hm|lia|].
    assert (L0 : less_one (b_left b) = 0%Z) by (unfold less_one; destruct Hz as [-> | ->]; reflexivity).
    assert (D : drawn_on par i h j b <-> strikes par b h v (d_five (in_d i) h j) (d_on (in_d i) h j)).
    { apply drawn_strikes; auto; [unfold someone; rewrite Em; exact Hv|exists n; exact Hp]. }
    assert (On : drawn_on par i h j b -> exists q, drawn_duration par i h j q /\ int_part q (b_left b1) /\ (0 < b_left b1)%Z).
    { intro O. destruct (B4 Hv L0 O) as (q & Q1 & Q2). exists q. split; auto. split; auto.
      destruct Q1 as (kk & lo & hi & P & Plo & Phi & Eq). destruct (G4 _ _ _ Plo Phi) as [X1 X2].
      assert (1 <= q). { rewrite Eq. assert (0 <= d_pos (in_d i) h j * (hi - lo)) by (apply Qmult_le_0_compat; lra). lra. }
      destruct Q2 as [Q2 _]. destruct Q2 as [Q2 Q3]; [lra|]. apply Z.lt_le_trans with 1%Z; [lia|].
      destruct (Z_le_gt_dec 1 (b_left b1)); auto. assert (b_left b1 + 1 <= 1)%Z as W by lia. rewrite Zle_Qle in W. rewrite inject_Z_plus in W. change (inject_Z 1) with 1 in W. lra. }
    exists s1, b1. split; auto. split; auto. split; auto. split; auto.
    assert (I : lit s1 h j <-> drawn_on par i h j b).
    { rewrite (lit_left _ _ _ _ B1). split.
      - intro L. destruct (Qlt_le_dec (d_on (in_d i) h j) (strength par b h v)) as [O|O].
        + destruct (Qlt_le_dec (snd v) (b_thr b)) as [F|F]; [|destruct (Qlt_le_dec (d_five (in_d i) h j) (5 # 100)) as [F'|F']].
          * apply D. split; auto.
          * apply D. split; auto.
          * exfalso. rewrite (B3 Hv L0) in L; [lia|]. intro X. apply D in X. destruct X as [[X|X] _]; lra.
        + exfalso. rewrite (B3 Hv L0) in L; [lia|]. intro X. apply D in X. destruct X as [_ X]. lra.
      - intro O. destruct (On O) as (q & _ & _ & L). exact L. }
    split; [rewrite I; exact D|]. split.
    - intro NL. apply B3; auto. intro O. apply NL. apply I. exact O.
    - intro L. apply I in L. destruct (On L) as (q & Q1 & Q2 & _). exists q. auto.
  Qed.

  Lemma some_inputs : forall vs us, length us = (2 * length vs)%nat -> exists ins, follows h j vs us ins.
  Proof.
    induction vs as [|v vs IH]; intros us L.
    - destruct us; [|discriminate]. exists []. exact I.
    - destruct us as [|f [|o us]]; [cbn [length] in L; lia|cbn [length] in L; lia|]. cbn [length] in L. destruct (IH us) as [ins F]; [lia|].
      exists (LIn (LDraws (fun _ _ => f) (fun _ _ => o) (fun _ _ => 0) (fun _ _ => 0)) (fst v) (snd v) :: ins). cbn. split; auto. repeat split. lra.
  Qed.

  Lemma dark_iff : forall vs s b us, lights n k s -> bulb_at s h j b -> (b_left b = 0 \/ b_left b = 1)%Z -> Forall (fun v => possible par n v /\ someone h v) vs ->
    length us = (2 * length vs)%nat -> ((forall ins, follows h j vs us ins -> dark_for par s h j ins) <-> none_strike par b h vs us).
  Proof.
    induction vs as [|v vs IH]; intros s b us Hs Hb Hz Hv L.
    - destruct us; [|discriminate]. cbn. split; auto. intros _ [|]; cbn; tauto.
    - destruct us as [|f [|o us]]; [cbn [length] in L; lia|cbn [length] in L; lia|]. inversion Hv as [|? ? [V1 V2] V3]; subst. cbn [length] in L. cbn [none_strike]. split.
      + intro H. destruct (some_inputs vs us) as [ins0 F0]; [lia|].
        set (i0 := LIn (LDraws (fun _ _ => f) (fun _ _ => o) (fun _ _ => 0) (fun _ _ => 0)) (fst v) (snd v)).
        assert (F : forall ins, follows h j vs us ins -> follows h j (v :: vs) (f :: o :: us) (i0 :: ins)) by (intros ins Fi; cbn; split; auto; repeat split; lra).
        destruct (step_dark s b i0 v Hs Hb Hz V1 V2 eq_refl eq_refl ltac:(cbn; lra)) as (s1 & b1 & E & S1 & B1 & SB & I & Z1 & _). cbn in I.
        assert (NL : ~ lit s1 h j). { destruct (H _ (F _ F0)) as (s1' & E' & NL & _). rewrite E in E'. injection E' as <-. exact NL. }
        split; [rewrite <- I; exact NL|].
        assert (R : none_strike par b1 h vs us).
        { apply (IH s1 b1 us S1 B1); auto; [lia|]. intros ins Fi. destruct (H _ (F _ Fi)) as (s1' & E' & _ & D). rewrite E in E'. injection E' as <-. exact D. }
        clear - R SB. revert us R. induction vs as [|w vs IH]; intros us R; [exact R|]. destruct us as [|f [|o us]]; try contradiction.
        destruct R as [R1 R2]. split; auto. rewrite <- (same_strikes par b b1 h w f o SB). exact R1.
      + intros [N R] [|i ins] F; [contradiction|]. cbn in F. destruct F as [(F1 & F2 & F3 & F4 & F5) F].
        destruct (step_dark s b i v Hs Hb Hz V1 V2 F1 F2 F5) as (s1 & b1 & E & S1 & B1 & SB & I & Z1 & _). rewrite F3, F4 in I.
        assert (NL : ~ lit s1 h j) by (rewrite I; exact N). exists s1. split; auto. split; auto. apply (proj2 (IH s1 b1 us S1 B1 (or_introl (Z1 NL)) V3 ltac:(lia))); auto.
        clear - R SB. revert us R. induction vs as [|w vs IH]; intros us R; [exact R|]. destruct us as [|f [|o us]]; try contradiction.
        destruct R as [R1 R2]. split; auto. rewrite (same_strikes par b b1 h w f o SB). exact R1.
  Qed.

  Lemma last_same : forall b b1 vs us, same_bulb b b1 -> (last_strikes par b1 h vs us <-> last_strikes par b h vs us).
  Proof.
    intros b b1 vs us SB. revert us. induction vs as [|v [|w vs] IH]; intros us; [cbn; tauto| |].
    - destruct us as [|f [|o [|]]]; cbn; try tauto. apply same_strikes; auto.
    - destruct us as [|f [|o us]]; try (cbn; tauto).
      change (last_strikes par b1 h (v :: w :: vs) (f :: o :: us)) with (~ strikes par b1 h v f o /\ last_strikes par b1 h (w :: vs) us).
      change (last_strikes par b h (v :: w :: vs) (f :: o :: us)) with (~ strikes par b h v f o /\ last_strikes par b h (w :: vs) us).
      rewrite IH, (same_strikes par b b1 h v f o SB). tauto.
  Qed.

  Lemma first_iff : forall vs s b us, lights n k s -> bulb_at s h j b -> (b_left b = 0 \/ b_left b = 1)%Z -> Forall (fun v => possible par n v /\ someone h v) vs -> vs <> [] ->
    length us = (2 * length vs)%nat -> ((forall ins, follows h j vs us ins -> first_lit par s h j ins) <-> last_strikes par b h vs us).
  Proof.
    induction vs as [|v vs IH]; intros s b us Hs Hb Hz Hv N L; [congruence|].
    destruct us as [|f [|o us]]; [cbn [length] in L; lia|cbn [length] in L; lia|]. inversion Hv as [|? ? [V1 V2] V3]; subst. cbn [length] in L.
    set (i0 := LIn (LDraws (fun _ _ => f) (fun _ _ => o) (fun _ _ => 0) (fun _ _ => 0)) (fst v) (snd v)).
    assert (F : forall ins, follows h j vs us ins -> follows h j (v :: vs) (f :: o :: us) (i0 :: ins)) by (intros ins Fi; cbn; split; auto; repeat split; lra).
    destruct vs as [|w vs].
    - destruct us; [|cbn [length] in L; lia]. cbn [last_strikes]. split.
      + intro H. destruct (step_dark s b i0 v Hs Hb Hz V1 V2 eq_refl eq_refl ltac:(cbn; lra)) as (s1 & b1 & E & S1 & B1 & SB & Is & Z1 & _). cbn in Is.
        destruct (H [i0] (F [] I)) as (s1' & E' & LI). rewrite E in E'. injection E' as <-. apply Is. exact LI.
      + intros St [|i ins] Fo; [contradiction|]. cbn [follows] in Fo. destruct Fo as [(F1 & F2 & F3 & F4 & F5) Fo]. destruct ins; [|contradiction].
        destruct (step_dark s b i v Hs Hb Hz V1 V2 F1 F2 F5) as (s1 & b1 & E & S1 & B1 & SB & Is & Z1 & _). rewrite F3, F4 in Is. exists s1. split; auto. apply Is. exact St.
    - change (last_strikes par b h (v :: w :: vs) (f :: o :: us)) with (~ strikes par b h v f o /\ last_strikes par b h (w :: vs) us). split.
      + intro H. destruct (some_inputs (w :: vs) us) as [ins0 F0]; [cbn [length] in *; lia|].
        destruct (step_dark s b i0 v Hs Hb Hz V1 V2 eq_refl eq_refl ltac:(cbn; lra)) as (s1 & b1 & E & S1 & B1 & SB & Is & Z1 & _). cbn in Is.
        assert (U : forall ins, follows h j (w :: vs) us ins -> ~ lit s1 h j /\ first_lit par s1 h j ins).
        { intros ins Fi. pose proof (H _ (F _ Fi)) as D. destruct ins as [|i1 ins]; [destruct us as [|? [|? ?]]; contradiction|].
          destruct D as (s1' & E' & NL & D). rewrite E in E'. injection E' as <-. auto. }
        split; [rewrite <- Is; apply (U _ F0)|]. apply (last_same b b1 _ _ SB). apply (IH s1 b1 us S1 B1); auto; [left; apply Z1; apply (U _ F0)|discriminate|cbn [length] in *; lia|].
        intros ins Fi. apply U. exact Fi.
      + intros [St R] [|i ins] Fo; [contradiction|]. cbn [follows] in Fo. destruct Fo as [(F1 & F2 & F3 & F4 & F5) Fo].
        destruct (step_dark s b i v Hs Hb Hz V1 V2 F1 F2 F5) as (s1 & b1 & E & S1 & B1 & SB & Is & Z1 & _). rewrite F3, F4 in Is.
        assert (NL : ~ lit s1 h j) by (rewrite Is; exact St).
        destruct ins as [|i1 ins]; [destruct us as [|? [|? ?]]; contradiction|]. cbn [first_lit]. exists s1. split; auto. split; auto.
        refine (proj2 (IH s1 b1 us S1 B1 (or_introl (Z1 NL)) V3 ltac:(discriminate) ltac:(cbn [length] in *; lia)) _ (i1 :: ins) Fo). apply (last_same b b1 _ _ SB). exact R.
  Qed.

  Lemma dark_probability : forall vs s b, lights n k s -> bulb_at s h j b -> (b_left b = 0 \/ b_left b = 1)%Z -> Forall (fun v => possible par n v /\ someone h v) vs ->
    has_probability (2 * length vs) (fun us => forall ins, follows h j vs us ins -> dark_for par s h j ins) (none_of (map (chance par b h) vs)).
  Proof.
    intros vs s b Hs Hb Hz Hv. eapply prob_ext; [apply (prob_none par b h vs)| |reflexivity]. intros us [L _]. symmetry. apply dark_iff; auto.
  Qed.

  Lemma first_probability : forall vs s b, lights n k s -> bulb_at s h j b -> (b_left b = 0 \/ b_left b = 1)%Z -> Forall (fun v => possible par n v /\ someone h v) vs -> vs <> [] ->
    has_probability (2 * length vs) (fun us => forall ins, follows h j vs us ins -> first_lit par s h j ins) (at_last (map (chance par b h) vs)).
  Proof.
    intros vs s b Hs Hb Hz Hv N. eapply prob_ext; [apply (prob_last par b h vs N)| |reflexivity]. intros us [L _]. symmetry. apply first_iff; auto.
  Qed.
End Sim.

(** ** How long it is lit *)

Lemma share_prob : forall m lo hi, lo <= hi -> has_probability 1 (fun us => exists u, us = [u] /\ inject_Z m <= lo + u * (hi - lo) /\ lo + u * (hi - lo) < inject_Z m + 1) (minute_share m lo hi).
Proof.
  intros m lo hi L. unfold minute_share. destruct (Qeq_bool lo hi) eqn:E.
  - apply Qeq_bool_iff in E. destruct (Qle_bool (inject_Z m) lo && negb (Qle_bool (inject_Z m + 1) lo)) eqn:D.
    + apply andb_true_iff in D as [D1 D2]. apply Qle_bool_iff in D1. apply negb_true_iff in D2.
      assert (D3 : lo < inject_Z m + 1) by (apply Qnot_le_lt; intro X; apply Qle_bool_iff in X; congruence).
      apply prob_always. intros us [U _]. destruct us as [|u [|]]; try discriminate. exists u. split; auto. assert (X : u * (hi - lo) == 0) by (rewrite E; ring). rewrite X. lra.
    + apply prob_never. intros us _ (u & _ & H1 & H2). assert (X : u * (hi - lo) == 0) by (rewrite E; ring). rewrite X in *.
      apply andb_false_iff in D as [D|D].
      * assert (inject_Z m <= lo) as Y by lra. apply Qle_bool_iff in Y. congruence.
      * apply negb_false_iff, Qle_bool_iff in D. lra.
  - assert (L' : lo < hi) by (apply Qle_lt_or_eq in L as [L|L]; auto; apply Qeq_bool_iff in L; congruence).
    set (w := hi - lo). assert (W : 0 < w) by (unfold w; lra).
    set (a := Qmax lo (inject_Z m)). set (c := Qmin hi (inject_Z m + 1)).
    assert (A1 : lo <= a) by apply Q.le_max_l. assert (A2 : inject_Z m <= a) by apply Q.le_max_r.
    assert (C1 : c <= hi) by apply Q.le_min_l. assert (C2 : c <= inject_Z m + 1) by apply Q.le_min_r.
    assert (HA : forall x, lo <= x -> inject_Z m <= x -> a <= x) by (intros; apply Q.max_lub; auto).
    assert (HC : forall x, x < hi -> x < inject_Z m + 1 -> x < c) by (intros; apply Q.min_glb_lt; auto).
    assert (K : forall u, 0 <= u -> u < 1 -> (inject_Z m <= lo + u * w /\ lo + u * w < inject_Z m + 1 <-> a <= lo + u * w /\ lo + u * w < c)).
    { intros u U0 U1. assert (P0 : 0 <= u * w) by (apply Qmult_le_0_compat; lra). assert (P1 : u * w < w) by (rewrite <- (Qmult_1_l w) at 2; apply Qmult_lt_compat_r; lra).
      split; [intros [X Y]; split; [apply HA|apply HC]; unfold w in *; lra|intros [X Y]; split; lra]. }
    clearbody a c. destruct (Qlt_le_dec a c) as [AC|AC].
    + eapply prob_ext; [apply (prob_interval (fun us => exists u, us = [u] /\ inject_Z m <= lo + u * w /\ lo + u * w < inject_Z m + 1) ((a - lo) / w) ((c - lo) / w))| |].
      * apply Qle_shift_div_l; lra.
      * apply Qle_shift_div_l; [exact W|]. field_simplify ((a - lo) / w * w); [lra|lra].
      * apply Qle_shift_div_r; [exact W|]. unfold w. lra.
      * intros u U0 U1. split.
        -- intros (v & [= <-] & H). apply K in H; auto. destruct H as [H1 H2]. split; [apply Qle_shift_div_r; auto; lra|apply Qlt_shift_div_l; auto; lra].
        -- intros [H1 H2]. exists u. split; auto. apply K; auto.
           assert (a - lo <= u * w). { assert (X : (a - lo) / w * w <= u * w) by (apply Qmult_le_compat_r; lra). field_simplify ((a - lo) / w * w) in X; lra. }
           assert (u * w < c - lo). { assert (X : u * w < (c - lo) / w * w) by (apply Qmult_lt_compat_r; lra). field_simplify ((c - lo) / w * w) in X; lra. }
           split; lra.
      * reflexivity.
      * rewrite Q.max_r by lra. unfold Qdiv. ring.
    + eapply prob_ext; [apply prob_never with (P := fun us => exists u, us = [u] /\ inject_Z m <= lo + u * w /\ lo + u * w < inject_Z m + 1)| |].
      * intros us U (u & -> & H). destruct U as [_ U]. inversion U as [|? ? [U0 U1] _]; subst. apply K in H; auto. lra.
      * reflexivity.
      * rewrite Q.max_l by lra. unfold Qdiv. ring.
Qed.

Lemma picks_selects : forall p cdf u k, is_pdf p -> cumulated p cdf -> 0 <= u -> u < 1 -> (picks cdf u k <-> selects p u k).
Proof.
  intros p cdf u k Hp [Hl Hc] U0 U1. assert (M : forall i c, at_ cdf i c -> c == mass_before p (S i)) by exact Hc. split.
  - intros [(c & H1 & H2 & H3)|[-> H]].
    + pose proof (at_lt _ _ _ _ H1) as Lk. split; [lia|]. rewrite <- (M _ _ H1). split; [|exact H2]. destruct k as [|k]; [cbn; lra|].
      destruct (lt_at _ cdf k) as [c' C']; [lia|]. rewrite <- (M _ _ C'). apply (H3 k c'); auto.
    + exfalso. destruct p as [|x p]; [destruct Hp as [_ Hp]; cbn in Hp; lra|]. destruct (lt_at _ cdf (length p)) as [c C]; [rewrite Hl; cbn; lia|].
      specialize (H _ _ C). rewrite (M _ _ C) in H. change (S (length p)) with (length (x :: p)) in H. rewrite mass_before_all in H. destruct Hp as [_ Hp]. lra.
  - intros (H1 & H2 & H3). left. destruct (lt_at _ cdf k) as [c C]; [lia|]. exists c. split; auto. rewrite (M _ _ C). split; auto.
    intros k' c' L C'. rewrite (M _ _ C'). pose proof (mass_mono p (S k') k (proj1 Hp) ltac:(lia)). lra.
Qed.

Section Long.
  Variables (par : lpar) (n k h j : nat) (p : list Q).
  Hypothesis good : good_durations par.
  Hypothesis pdf : is_pdf p.
  Hypothesis cum : cumulated p (p_cdf par).

  Lemma duration_probability : forall m, (1 <= m)%Z ->
    has_probability 2 (fun us => exists kk, In kk (seq 0 (length p)) /\ (exists u, firstn 1 us = [u] /\ selects p u kk) /\
      (exists u, skipn 1 us = [u] /\ inject_Z m <= nth kk (p_low par) 0 + u * (nth kk (p_high par) 0 - nth kk (p_low par) 0) /\
         nth kk (p_low par) 0 + u * (nth kk (p_high par) 0 - nth kk (p_low par) 0) < inject_Z m + 1)) (minutes par p m).
  Proof.
    intros m Hm. destruct good as (G1 & G2 & G3 & G4). destruct cum as [C1 C2].
    apply (prob_then 1 1 nat (seq 0 (length p)) (fun kk us => exists u, us = [u] /\ selects p u kk)
      (fun kk us => exists u, us = [u] /\ inject_Z m <= nth kk (p_low par) 0 + u * (nth kk (p_high par) 0 - nth kk (p_low par) 0) /\
         nth kk (p_low par) 0 + u * (nth kk (p_high par) 0 - nth kk (p_low par) 0) < inject_Z m + 1) (entry p) (fun kk => minute_share m (nth kk (p_low par) 0) (nth kk (p_high par) 0))).
    - apply seq_NoDup.
    - intros x _. apply prob_selects. exact pdf.
    - intros x Hx. apply in_seq in Hx. apply share_prob. destruct (lt_at _ (p_low par) x) as [lo Lo]; [lia|]. destruct (lt_at _ (p_high par) x) as [hi Hi]; [lia|].
      rewrite (nth_error_nth _ _ 0 Lo), (nth_error_nth _ _ 0 Hi). apply (G4 _ _ _ Lo Hi).
    - intros us x y _ _ _ (u & -> & S1) (u' & [= <-] & S2). eapply selects_fun; eauto. apply pdf.
  Qed.

  Lemma lit_minutes : forall s b v m, lights n k s -> bulb_at s h j b -> (b_left b = 0 \/ b_left b = 1)%Z -> possible par n v -> someone h v -> (1 <= m)%Z ->
    has_probability 4 (fun us => forall i, drawn_step h j v us i -> exists s1 b1, light_do par s i = Ok s1 /\ bulb_at s1 h j b1 /\ b_left b1 = m) (chance par b h v * minutes par p m).
  Proof.
    intros s b v m Hs Hb Hz Hp Hv Hm. pose proof good as (G1 & G2 & G3 & G4). pose proof cum as [C1 C2].
    eapply prob_ext; [apply (prob_both 2 2 _ _ _ _ (prob_strikes par b h v) (duration_probability m Hm))| |reflexivity].
    intros us U. destruct us as [|f [|o [|e [|r [|]]]]]; try (destruct U as [U _]; discriminate). cbn [firstn skipn].
    destruct U as [_ U]. inversion U as [|? ? F0 U']; subst. inversion U' as [|? ? O0 U'']; subst. inversion U'' as [|? ? [E0 E1] U3]; subst. inversion U3 as [|? ? [R0 R1] _]; subst. clear U U' U'' U3.
    assert (X : forall i, drawn_step h j v [f; o; e; r] i -> exists s1 b1, light_do par s i = Ok s1 /\ bulb_at s1 h j b1 /\
        (b_left b1 = m <-> (exists f' o', [f; o] = [f'; o'] /\ strikes par b h v f' o') /\ (exists kk, In kk (seq 0 (length p)) /\ (exists u, [e] = [u] /\ selects p u kk) /\
          (exists u, [r] = [u] /\ inject_Z m <= nth kk (p_low par) 0 + u * (nth kk (p_high par) 0 - nth kk (p_low par) 0) /\
           nth kk (p_low par) 0 + u * (nth kk (p_high par) 0 - nth kk (p_low par) 0) < inject_Z m + 1)))).
    { intros i (I1 & I2 & I3). injection I3 as I3 I4 I5 I6.
      destruct (step_dark par n k h j good s b i v Hs Hb Hz Hp Hv I1 I2 ltac:(rewrite <- I6; exact R0)) as (s1 & b1 & E & S1 & B1 & SB & Is & Z1 & D1).
      rewrite <- I3, <- I4 in Is. exists s1, b1. split; auto. split; auto. split.
      - intro M. assert (LI : lit s1 h j) by (apply (lit_left _ _ _ _ B1); lia). split; [exists f, o; split; auto; apply Is; auto|].
        destruct (D1 LI) as (q & (kk & lo & hi & P & Plo & Phi & Eq) & Q2). rewrite <- I5 in P. rewrite <- I6 in Eq. rewrite M in Q2.
        apply (picks_selects p _ _ _ pdf cum E0 E1) in P. exists kk. split; [apply in_seq; destruct P; lia|]. split; [eauto|]. exists r. split; auto.
        rewrite (nth_error_nth _ _ 0 Plo), (nth_error_nth _ _ 0 Phi). rewrite <- Eq. destruct (G4 _ _ _ Plo Phi) as [X1 X2].
        apply Q2. rewrite Eq. assert (0 <= r * (hi - lo)) by (apply Qmult_le_0_compat; lra). lra.
      - intros [(f' & o' & [= <- <-] & St) (kk & Ik & (u & [= <-] & Sel) & (u' & [= <-] & M1 & M2))]. apply Is in St. destruct (D1 St) as (q & (kk' & lo & hi & P & Plo & Phi & Eq) & Q2).
        rewrite <- I5 in P. rewrite <- I6 in Eq. apply (picks_selects p _ _ _ pdf cum E0 E1) in P. rewrite (selects_fun p e kk kk' (proj1 pdf) Sel P) in *.
        rewrite (nth_error_nth _ _ 0 Plo), (nth_error_nth _ _ 0 Phi) in M1, M2. rewrite <- Eq in M1, M2. destruct (G4 _ _ _ Plo Phi) as [X1 X2].
        assert (Q0 : 0 <= q). { rewrite Eq. assert (0 <= r * (hi - lo)) by (apply Qmult_le_0_compat; lra). lra. }
        destruct Q2 as [Q2 _]. destruct (Q2 Q0) as [Q3 Q4].
        assert (A : inject_Z m < inject_Z (b_left b1 + 1)) by (rewrite inject_Z_plus; change (inject_Z 1) with 1; lra).
        assert (B : inject_Z (b_left b1) < inject_Z (m + 1)) by (rewrite inject_Z_plus; change (inject_Z 1) with 1; lra).
        rewrite <- Zlt_Qlt in A, B. lia. }
    split.
    - intros H i Hi. destruct (X i Hi) as (s1 & b1 & E & B1 & M). exists s1, b1. split; auto. split; auto. apply M. exact H.
    - intro H. set (i0 := LIn (LDraws (fun _ _ => f) (fun _ _ => o) (fun _ _ => e) (fun _ _ => r)) (fst v) (snd v)).
      assert (D0 : drawn_step h j v [f; o; e; r] i0) by (repeat split). destruct (X i0 D0) as (s1 & b1 & E & B1 & M). destruct (H i0 D0) as (s1' & b1' & E' & B1' & M').
      rewrite E in E'. injection E' as <-. apply M. destruct B1 as (_ & _ & _ & B1). destruct B1' as (_ & _ & _ & B1'). rewrite (at2_fun _ _ _ _ _ _ B1 B1'). exact M'.
  Qed.
End Long.

(** ** All minutes *)

Lemma total_cons' : forall x l, total (x :: l) = x + total l.
Proof. reflexivity. Qed.

Definition between (lo hi x : Q) : Q := Qmax lo (Qmin hi x).

Lemma share_between : forall m lo hi, lo < hi -> minute_share m lo hi == (between lo hi (inject_Z m + 1) - between lo hi (inject_Z m)) / (hi - lo).
Proof.
  intros m lo hi L. unfold minute_share. assert (E : Qeq_bool lo hi = false). { destruct (Qeq_bool lo hi) eqn:E; auto. apply Qeq_bool_iff in E. lra. } rewrite E.
  assert (X : Qmax 0 (Qmin hi (inject_Z m + 1) - Qmax lo (inject_Z m)) == between lo hi (inject_Z m + 1) - between lo hi (inject_Z m)); [|rewrite X; reflexivity].
  unfold between. generalize (inject_Z m). intro x.
  destruct (Q.min_spec hi (x + 1)) as [[? M1]|[? M1]]; destruct (Q.min_spec hi x) as [[? M2]|[? M2]]; destruct (Q.max_spec lo x) as [[? M3]|[? M3]]; rewrite ?M1, ?M2, ?M3;
  repeat match goal with |- context [Qmax ?a ?b] => let H := fresh in let K := fresh in destruct (Q.max_spec a b) as [[H K]|[H K]]; rewrite !K; clear K end; lra.
Qed.

Lemma share_sum : forall lo hi N a, lo <= hi -> inject_Z (Z.of_nat a) <= lo -> hi < inject_Z (Z.of_nat (a + N)) ->
  total (map (fun m => minute_share (Z.of_nat m) lo hi) (seq a N)) == 1.
Proof.
  intros lo hi N a L A B. destruct (Qeq_bool lo hi) eqn:E.
  - unfold minute_share. rewrite E. apply Qeq_bool_iff in E. revert a A B. induction N as [|N IH]; intros a A B.
    + rewrite Nat.add_0_r in B. lra.
    + cbn [seq map]; rewrite ?total_cons'. apply Qle_bool_iff in A as A'. rewrite A'. destruct (Qle_bool (inject_Z (Z.of_nat a) + 1) lo) eqn:D; [change (true && negb true) with false|change (true && negb false) with true]; cbv iota.
      * apply Qle_bool_iff in D. rewrite (IH (S a)); [ring| |]. { rewrite Nat2Z.inj_succ, <- Z.add_1_r, inject_Z_plus. exact D. } { replace (S a + N)%nat with (a + S N)%nat by lia. exact B. }
      * assert (D' : lo < inject_Z (Z.of_nat a) + 1) by (apply Qnot_le_lt; intro X; apply Qle_bool_iff in X; congruence).
        assert (Z0 : forall N b, lo < inject_Z (Z.of_nat b) -> total (map (fun m => if Qle_bool (inject_Z (Z.of_nat m)) lo && negb (Qle_bool (inject_Z (Z.of_nat m) + 1) lo) then 1 else 0) (seq b N)) == 0).
        { clear. induction N as [|N IH]; intros b Hb; [reflexivity|]. cbn [seq map]; rewrite ?total_cons'. destruct (Qle_bool (inject_Z (Z.of_nat b)) lo) eqn:X; [apply Qle_bool_iff in X; lra|]. rewrite andb_false_l.
          rewrite IH; [ring|]. rewrite Nat2Z.inj_succ, <- Z.add_1_r, inject_Z_plus. change (inject_Z 1) with 1. lra. }
        rewrite Z0; [ring|]. rewrite Nat2Z.inj_succ, <- Z.add_1_r, inject_Z_plus. exact D'.
  - assert (L' : lo < hi) by (apply Qle_lt_or_eq in L as [L|L]; auto; apply Qeq_bool_iff in L; congruence).
    assert (T : forall N a, total (map (fun m => minute_share (Z.of_nat m) lo hi) (seq a N)) == (between lo hi (inject_Z (Z.of_nat (a + N))) - between lo hi (inject_Z (Z.of_nat a))) / (hi - lo)).
    { clear A B. intros N0. induction N0 as [|N0 IH]; intro a0; cbn [seq map]; rewrite ?total_cons'.
      - rewrite Nat.add_0_r. change (total []) with 0. unfold Qdiv. ring.
      - rewrite IH, share_between by exact L'. replace (a0 + S N0)%nat with (S a0 + N0)%nat by lia. rewrite (Nat2Z.inj_succ a0), <- Z.add_1_r, inject_Z_plus. change (inject_Z 1) with 1. field. lra. }
    rewrite T. unfold between. rewrite (Q.min_l hi), (Q.max_r lo hi), (Q.min_r hi), (Q.max_l lo) by lra. field. lra.
Qed.

Lemma total_swap : forall A B (f : A -> B -> Q) (l : list A) (r : list B),
  total (map (fun x => total (map (fun y => f x y) r)) l) == total (map (fun y => total (map (fun x => f x y) l)) r).
Proof.
  intros A B f l r. induction l as [|x l IH]; cbn [map]; rewrite ?total_cons'.
  - induction r as [|y r IH]; [reflexivity|]. cbn [map]; rewrite ?total_cons'. rewrite <- IH. reflexivity.
  - rewrite IH. clear IH. induction r as [|y r IH]; [cbn; lra|]. cbn [map]; rewrite ?total_cons'. rewrite <- IH. ring.
Qed.

Lemma total_scale' : forall A (c : Q) (f : A -> Q) l, total (map (fun x => c * f x) l) == c * total (map f l).
Proof. intros A c f l. induction l as [|x l IH]; cbn [map]; rewrite ?total_cons'; [change (total []) with 0; ring|]. rewrite IH. ring. Qed.

Lemma total_ext' : forall A (f g : A -> Q) l, (forall x, In x l -> f x == g x) -> total (map f l) == total (map g l).
Proof. intros A f g l H. induction l as [|x l IH]; cbn [map]; rewrite ?total_cons'; [reflexivity|]. rewrite (H x), IH; [reflexivity| |left; reflexivity]. intros y Y. apply H. right. exact Y. Qed.

Lemma entries_all : forall p, map (entry p) (seq 0 (length p)) = p.
Proof.
  intro p. unfold entry. induction p as [|x p IH]; [reflexivity|]. cbn [length seq map]. f_equal. rewrite <- seq_shift, map_map. exact IH.
Qed.

Lemma minutes_total : forall par p N, good_durations par -> is_pdf p -> cumulated p (p_cdf par) ->
  (forall k hi, at_ (p_high par) k hi -> hi < inject_Z (Z.of_nat N) + 1) ->
  total (map (fun m => minutes par p (Z.of_nat m)) (seq 1 N)) == 1.
Proof.
  intros par p N (G1 & G2 & G3 & G4) [_ Hp] [C1 _] Hh. unfold minutes.
  rewrite (total_swap _ _ (fun m k => entry p k * minute_share (Z.of_nat m) (nth k (p_low par) 0) (nth k (p_high par) 0))).
  rewrite (total_ext' _ _ (entry p)).
  - rewrite entries_all. exact Hp.
  - intros k Hk. apply in_seq in Hk. rewrite (total_scale' _ (entry p k)). destruct (lt_at _ (p_low par) k) as [lo Lo]; [lia|]. destruct (lt_at _ (p_high par) k) as [hi Hi]; [lia|].
    rewrite (nth_error_nth _ _ 0 Lo), (nth_error_nth _ _ 0 Hi). destruct (G4 _ _ _ Lo Hi) as [X1 X2]. rewrite share_sum; [ring|exact X2|exact X1|].
    specialize (Hh _ _ Hi). change (1 + N)%nat with (S N). rewrite Nat2Z.inj_succ, <- Z.add_1_r, inject_Z_plus. exact Hh.
Qed.
