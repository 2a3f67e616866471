(** * Proofs about daily activity profiles. *)

From Coq Require Import String List ZArith Znumtheory QArith Bool Arith Lia.
From Verif Require Import Prelude PreludeFacts SpecBase SpecBaseFacts Parse_Model Parse_DurProofs GTou_Proofs Time_Model Time_Spec Time_Proofs
  Subgroup_Model Subgroup_Spec Subgroup_Proofs Appliance_Model Appliance_Spec Matrix_Proofs Appliance_Proofs Appliance_RunProofs AppSetup_Model AppSetup_InitProofs
  Daily_Model Daily_Spec.
Import ListNotations.
Local Open Scope Z_scope.

(** ** Arithmetic *)

Lemma slot_last : forall a dt T, 0 < dt -> 0 < T -> (dt | T) -> (dt | a) -> (a + dt - 1) / T = a / T.
Proof.
  intros a dt T Hd HT [y Ey] [x Ex]. subst a T. assert (0 < y) by nia.
  rewrite (Z.mul_comm y dt), <- !Z.div_div by lia. f_equal.
  rewrite Z.div_mul by lia. symmetry. apply (Z.div_unique_pos _ _ _ (dt - 1)); lia.
Qed.

Lemma slot_same : forall a T, 0 < T -> ~ (T | a) -> (a - 1) / T = a / T.
Proof.
  intros a T HT N. symmetry.
  assert (E := Z.div_mod a T ltac:(lia)). assert (B := Z.mod_pos_bound a T HT).
  assert (a mod T <> 0) by (intro Z0; apply N; exists (a / T); lia).
  apply (Z.div_unique_pos _ _ _ (a mod T - 1)); lia.
Qed.

Lemma slot_next : forall a T, 0 < T -> (T | a) -> (a - 1) / T + 1 = a / T.
Proof.
  intros a T HT [x ->]. rewrite Z.div_mul by lia.
  assert ((x * T - 1) / T = x - 1); [|lia]. symmetry. apply (Z.div_unique_pos _ _ _ (T - 1)); lia.
Qed.

Lemma minute_ten : forall t, (minutes 1 | t) -> (minute_at t mod 10 = 0 <-> (minutes 10 | t)).
Proof.
  unfold minutes, minute_at, time_of_day, us_per_day. intros t [m ->].
  replace (m * (1 * 60000000)) with (60000000 * m) by lia. replace 86400000000 with (60000000 * 1440) by lia.
  rewrite Z.mul_mod_distr_l by lia. rewrite (Z.mul_comm 60000000 (m mod 1440)), Z.div_mul by lia.
  assert (E : (m mod 1440) mod 60 mod 10 = m mod 10).
  { rewrite <- (Zmod_div_mod 10 60) by (lia || (exists 6; reflexivity)). symmetry. apply Zmod_div_mod; [lia|lia|exists 144; reflexivity]. }
  rewrite E. split.
  - intro H. exists (m / 10). assert (X := Z.div_mod m 10 ltac:(lia)). lia.
  - intros [x Hx]. assert (m = x * 10) by lia. subst m. apply Z.mod_mul. lia.
Qed.

Lemma latest_at : forall r t, t mod us_per_day = r -> latest_occurrence r t t.
Proof. intros r t H. repeat split; auto; lia. Qed.

Lemma latest_fun : forall r t a b, latest_occurrence r t a -> latest_occurrence r t b -> a = b.
Proof. intros r t a b (A1 & A2 & A3) (B1 & B2 & B3). pose proof (A3 b B2 B1). pose proof (B3 a A2 A1). lia. Qed.

Lemma mod_diff : forall a b m, 0 < m -> a mod m = b mod m -> (m | a - b).
Proof.
  intros a b m H E. exists (a / m - b / m). assert (A := Z.div_mod a m ltac:(lia)). assert (B := Z.div_mod b m ltac:(lia)). nia.
Qed.

Lemma day_ten : (minutes 10 | us_per_day).
Proof. exists 144. reflexivity. Qed.

Section Grid.
  Variables (r dt : Z).
  Hypothesis dt_pos : 0 < dt.
  Hypothesis dt_min : (minutes 1 | dt).
  Hypothesis dt_ten : (dt | minutes 10).
  Hypothesis r_day : 0 <= r < us_per_day.
  Hypothesis r_ten : (minutes 10 | r).

  Lemma occurrence_ten : forall x, x mod us_per_day = r -> (minutes 10 | x).
  Proof.
    intros x H. assert (E := Z.div_mod x us_per_day ltac:(unfold us_per_day; lia)). rewrite E, H.
    apply Z.divide_add_r; [apply Z.divide_mul_l, day_ten|exact r_ten].
  Qed.

  Lemma occurrence_grid : forall x, x mod us_per_day = r -> (dt | x - r).
  Proof.
    intros x H. eapply Z.divide_trans; [exact dt_ten|]. apply Z.divide_sub_r; [apply occurrence_ten; exact H|exact r_ten].
  Qed.

  Lemma grid_minute : forall t, (dt | t - r) -> (minutes 1 | t).
  Proof.
    intros t H. replace t with ((t - r) + r) by lia. apply Z.divide_add_r.
    - eapply Z.divide_trans; [exact dt_min|exact H].
    - eapply Z.divide_trans; [|exact r_ten]. exists 10. reflexivity.
  Qed.

  (** No refresh time strictly between two steps. *)
  Lemma latest_step : forall t R, (dt | t - r) -> latest_occurrence r t R -> (t + dt) mod us_per_day <> r -> latest_occurrence r (t + dt) R.
  Proof.
    intros t R G (L1 & L2 & L3) N. split; [lia|]. split; [exact L2|]. intros d Hd Hle.
    destruct (Z.le_gt_cases d t) as [C|C]; [apply L3; auto|]. exfalso.
    assert (Gd : (dt | d - t)). { replace (d - t) with ((d - r) - (t - r)) by lia. apply Z.divide_sub_r; [apply occurrence_grid; exact Hd|exact G]. }
    destruct Gd as [k Ek]. assert (k = 1) by (clear - Ek C Hle dt_pos; nia). subst k. apply N. replace (t + dt) with d by lia. exact Hd.
  Qed.

  Lemma since_grid : forall t R, (dt | t - r) -> R mod us_per_day = r -> (dt | t - R).
  Proof.
    intros t R G H. replace (t - R) with ((t - r) - (R - r)) by lia. apply Z.divide_sub_r; [exact G|apply occurrence_grid; exact H].
  Qed.

  Lemma since_ten : forall t R, R mod us_per_day = r -> ((minutes 10 | t) <-> (minutes 10 | t - R)).
  Proof.
    intros t R H. apply occurrence_ten in H. split; intro G.
    - apply Z.divide_sub_r; assumption.
    - replace t with ((t - R) + R) by lia. apply Z.divide_add_r; assumption.
  Qed.
End Grid.

(** ** Tables *)

Lemma by_time_at : forall probs slices, by_time probs = Ok slices ->
  forall k slice, at_ slices k slice -> length slice = length probs /\
  forall i g acts, at_ probs i g -> at_ slice i acts -> length acts = length g /\
  forall j p by_occ, at_ g j p -> at_ acts j by_occ -> length p = length slices /\ at_ p k by_occ.
Proof.
  intros probs slices H k slice Hk. unfold by_time in H. destruct probs as [|[|p0 g0] rest] eqn:Ep; try discriminate. rewrite <- Ep in *.
  match type of H with (if ?c then _ else _) = _ => destruct c eqn:C end; [|discriminate].
  destruct (mapM_ok _ _ _ _ _ H) as [L1 M1]. rewrite seq_length in L1.
  assert (Lk := at_lt _ _ _ _ Hk).
  assert (S : nth_error (seq 0 (length p0)) k = Some k).
  { rewrite nth_error_nth' with (d := 0%nat) by (rewrite seq_length; lia). f_equal. apply seq_nth. lia. }
  destruct (M1 k k S) as (sl & Esl & M2). unfold at_ in Hk. rewrite Hk in Esl. injection Esl as <-.
  destruct (mapM_ok _ _ _ _ _ M2) as [L2 M3]. split; [exact L2|]. intros i g acts Hg Ha.
  destruct (M3 i g Hg) as (acts' & Ea & M4). unfold at_ in Ha. rewrite Ha in Ea. injection Ea as <-.
  destruct (mapM_ok _ _ _ _ _ M4) as [L3 M5]. split; [exact L3|]. intros j p bo Hp Hb.
  destruct (M5 j p Hp) as (bo' & Eb & M6). unfold at_ in Hb. rewrite Hb in Eb. injection Eb as <-. apply vget_ok in M6. split; [|exact M6].
  rewrite forallb_forall in C. specialize (C g (at_in _ _ _ _ Hg)). rewrite forallb_forall in C. specialize (C p (at_in _ _ _ _ Hp)).
  apply andb_true_iff in C. destruct C as [C _]. apply Nat.eqb_eq in C. lia.
Qed.

Lemma mapM_fails : forall A B (f : A -> result B) l e0, (forall x e, In x l -> f x = Err e -> e = e0) ->
  (exists x, In x l /\ f x = Err e0) -> mapM f l = Err e0.
Proof.
  induction l as [|y l IH]; simpl; intros e0 H (x & Hx & Fx); [destruct Hx|].
  destruct (f y) as [b|e] eqn:E; [|cbn [bind]; f_equal; apply (H y); auto]. cbn [bind].
  rewrite (IH e0); [reflexivity|intros; apply (H x0); auto|]. exists x. split; [|exact Fx]. destruct Hx as [->|Hx]; [congruence|exact Hx].
Qed.

Lemma profiles_err : forall labels d e, profiles_of labels d = Err e -> e = ValueError.
Proof.
  unfold profiles_of. induction labels as [|l labels IH]; simpl; intros d e H; [discriminate|].
  destruct (dget String.eqb d l); [|injection H as <-; reflexivity]. cbn [bind] in H.
  destruct (mapM _ labels) as [|e'] eqn:E; [discriminate|]. injection H as <-. apply (IH d). exact E.
Qed.

Section Table.
  Variables (D : data) (labels : list string).

  Definition table (gs : list subgroup) (slices : list (list (list (list Q)))) : Prop :=
    forall k slice, at_ slices k slice -> length slice = length gs /\
    forall i g acts, at_ gs i g -> at_ slice i acts -> length acts = length labels /\
    forall j lab by_occ, at_ labels j lab -> at_ acts j by_occ ->
      exists d p, d_load D g = Ok d /\ dget String.eqb d lab = Some p /\ length p = length slices /\ at_ p k by_occ.

  Lemma set_pdf_ok : forall u u', set_activity_pdf D labels u = Ok u' ->
    y_groups u' = y_groups u /\ y_next u' = 0%nat /\ y_current u' = y_current u /\ y_app u' = y_app u /\ table (y_groups u) (y_slices u').
  Proof.
    unfold set_activity_pdf. intros u u' H. destruct (mapM (d_load D) (y_groups u)) as [dicts|] eqn:E1; [|discriminate]. cbn [bind] in H.
    destruct (mapM (profiles_of labels) dicts) as [probs|] eqn:E2; [|discriminate]. cbn [bind] in H.
    destruct (by_time probs) as [slices|] eqn:E3; [|discriminate]. cbn [bind] in H. injection H as <-. simpl. repeat (split; [reflexivity|]).
    destruct (mapM_ok _ _ _ _ _ E1) as [L1 M1]. destruct (mapM_ok _ _ _ _ _ E2) as [L2 M2].
    intros k slice Hk. destruct (by_time_at _ _ E3 k slice Hk) as [L3 M3]. split; [congruence|]. intros i g acts Hg Ha.
    destruct (M1 i g Hg) as (d & Ed & Ld). destruct (M2 i d Ed) as (ps & Eps & Lp). destruct (mapM_ok _ _ _ _ _ Lp) as [L4 M4].
    destruct (M3 i ps acts Eps Ha) as [L5 M5]. split; [congruence|]. intros j lab bo Hl Hb. destruct (M4 j lab Hl) as (p & Ep & Gp).
    destruct (M5 j p bo Ep Hb) as [L6 M6]. destruct (dget String.eqb d lab) as [p'|] eqn:Eg; [|discriminate]. injection Gp as ->. eauto 10.
  Qed.

  (** A label that is missing for some subgroup. *)
  Lemma set_pdf_missing : forall u i g d lab, (forall g', In g' (y_groups u) -> exists d', d_load D g' = Ok d') ->
    at_ (y_groups u) i g -> d_load D g = Ok d -> In lab labels -> dget String.eqb d lab = None -> set_activity_pdf D labels u = Err ValueError.
  Proof.
    intros u i g d lab T Hg Hd Hl Hn. unfold set_activity_pdf. destruct (mapM_total _ _ (d_load D) (y_groups u) T) as [dicts E]. rewrite E. cbn [bind].
    destruct (mapM_ok _ _ _ _ _ E) as [_ M]. destruct (M i g Hg) as (d' & Ed' & X). assert (d' = d) by congruence. subst d'.
    assert (Y : In d dicts) by (eapply nth_error_In; exact Ed').
    rewrite (mapM_fails _ _ (profiles_of labels) dicts ValueError); [reflexivity| |].
    - intros x e _ F. apply (profiles_err _ _ _ F).
    - exists d. split; [exact Y|]. apply mapM_fails.
      + intros x e _ F. destruct (dget String.eqb d x); congruence.
      + exists lab. rewrite Hn. auto.
  Qed.

  Lemma set_pdf_ragged : forall u p q,
    (forall g, In g (y_groups u) -> exists d, d_load D g = Ok d /\ forall lab, In lab labels -> exists r, dget String.eqb d lab = Some r) ->
    tabled D labels u p -> tabled D labels u q -> length p <> length q \/ (exists r r', In r p /\ In r' q /\ length r <> length r') ->
    set_activity_pdf D labels u = Err ValueError.
  Proof.
    intros u p q T Hp Hq N. unfold set_activity_pdf.
    destruct (mapM_total _ _ (d_load D) (y_groups u)) as [dicts E]; [intros g Hg; destruct (T g Hg) as (d & Ed & _); eauto|]. rewrite E. cbn [bind].
    destruct (mapM_ok _ _ _ _ _ E) as [L M].
    assert (Dn : forall d, In d dicts -> exists g, In g (y_groups u) /\ d_load D g = Ok d).
    { intros d Hd. apply in_at in Hd. destruct Hd as [k Hk]. pose proof (at_lt _ _ _ _ Hk). destruct (lt_at _ (y_groups u) k) as [g Hg]; [lia|].
      destruct (M k g Hg) as (d' & Hd' & X). exists g. split; [eapply at_in; eauto|]. unfold at_ in Hk. congruence. }
    destruct (mapM_total _ _ (profiles_of labels) dicts) as [probs E2].
    { intros d Hd. destruct (Dn d Hd) as (g & Hg & Ed). destruct (T g Hg) as (d' & Ed' & X). assert (d' = d) by congruence. subst d'.
      apply mapM_total. intros lab Hl. destruct (X lab Hl) as [r Hr]. rewrite Hr. eauto. }
    rewrite E2. cbn [bind]. destruct (mapM_ok _ _ _ _ _ E2) as [_ M2].
    assert (K : forall r, tabled D labels u r -> exists row, In row probs /\ In r row).
    { intros r (g & d & lab & A1 & A2 & A3 & A4). apply in_at in A1. destruct A1 as [k Hk]. destruct (M k g Hk) as (d' & Hd' & X).
      assert (d' = d) by congruence. subst d'. destruct (M2 k d Hd') as (row & Hrow & Y). exists row. split; [eapply nth_error_In; exact Hrow|].
      destruct (mapM_ok _ _ _ _ _ Y) as [_ M3]. apply in_at in A3. destruct A3 as [m Hm]. destruct (M3 m lab Hm) as (r' & Hr' & Z).
      rewrite A4 in Z. injection Z as <-. eapply nth_error_In. exact Hr'. }
    destruct (K p Hp) as (rp & Ip & Jp). destruct (K q Hq) as (rq & Iq & Jq). clear - N Ip Jp Iq Jq. unfold by_time.
    destruct probs as [|[|p0 ps] probs]; [reflexivity|reflexivity|].
    set (k := match p0 with row :: _ => length row | [] => 0%nat end).
    destruct (forallb _ ((p0 :: ps) :: probs)) eqn:F; [|reflexivity]. exfalso. rewrite forallb_forall in F.
    assert (S : forall row x, In row ((p0 :: ps) :: probs) -> In x row -> length x = length p0 /\ forall r, In r x -> length r = k).
    { intros row x A B. specialize (F row A). rewrite forallb_forall in F. specialize (F x B). apply andb_true_iff in F. destruct F as [F1 F2].
      apply Nat.eqb_eq in F1. split; [exact F1|]. intros r Hr. unfold all_length in F2. rewrite forallb_forall in F2. apply Nat.eqb_eq. apply F2. exact Hr. }
    destruct (S rp p Ip Jp) as [S1 S2]. destruct (S rq q Iq Jq) as [S3 S4].
    destruct N as [N|(r & r' & A & B & N)]; [congruence|]. rewrite (S2 r A), (S4 r' B) in N. congruence.
  Qed.
End Table.

(** ** The subgroups *)

Section Run.
  Variables (D : data) (labels : list string) (types : list nat) (subs : list subgroup) (dt : Z).
  Hypothesis subs_dict : forall i g, at_ subs i g -> is_dict g.
  Hypothesis dt_pos : 0 < dt.
  Hypothesis dt_min : (minutes 1 | dt).
  Hypothesis dt_ten : (dt | minutes 10).
  Hypothesis r_day : 0 <= d_refresh D < us_per_day.
  Hypothesis r_ten : (minutes 10 | d_refresh D).

  Definition origin (gs : list subgroup) : Prop := length gs = length subs /\
    forall i g g', at_ subs i g -> at_ gs i g' -> is_dict g' /\ forall key, key <> "weekday"%string -> key <> "quarter"%string -> agree g' g key.

  Definition all_dated (t : Z) (gs : list subgroup) : Prop := length gs = length subs /\
    forall i g g', at_ subs i g -> at_ gs i g' -> dated g t g'.

  Lemma origin_subs : origin subs.
  Proof.
    split; [reflexivity|]. intros i g g' H H'. unfold at_ in *. assert (g' = g) by congruence. subst g'. split; [apply (subs_dict i); exact H|].
    intros key _ _ v. tauto.
  Qed.

  Lemma dated_origin : forall t gs, all_dated t gs -> origin gs.
  Proof. intros t gs [L H]. split; [exact L|]. intros i g g' A B. destruct (H i g g' A B) as (X & Y & _). auto. Qed.

  Lemma update_ok : forall t u u', 0 <= t -> origin (y_groups u) -> update_subgroups t u = Ok u' ->
    all_dated t (y_groups u') /\ y_slices u' = y_slices u /\ y_next u' = y_next u /\ y_current u' = y_current u /\ y_app u' = y_app u.
  Proof.
    unfold update_subgroups. intros t u u' Ht [L O] H. destruct (mapM _ (y_groups u)) as [gs|] eqn:E; [|discriminate]. cbn [bind] in H. injection H as <-. simpl.
    split; [|auto]. destruct (mapM_ok _ _ _ _ _ E) as [L1 M1]. split; [congruence|]. intros i g g' Hg Hg'.
    assert (Lt : (i < length (y_groups u))%nat) by (rewrite <- L1; eapply at_lt; exact Hg'). destruct (lt_at _ _ _ Lt) as [g0 H0].
    destruct (M1 i g0 H0) as (x & Ex & A). unfold at_ in Hg'. rewrite Hg' in Ex. injection Ex as <-.
    destruct (O i g g0 Hg H0) as [I0 Ag]. pose proof (add_time_main g0 t WeekEndsDays false I0 Ht) as M. cbn [flags] in M.
    destruct M as (d' & Ed & Id & Ad & Wd & Qd). assert (d' = g') by congruence. subst d'.
    split; [exact Id|]. split; [intros key K1 K2 v; rewrite (Ad key K1 K2 v); apply (Ag key K1 K2 v)|]. split; [exact Wd|].
    intros v Hv. apply Qd in Hv. destruct Hv as [F _]. discriminate.
  Qed.

  (** A subgroup list can always be updated. *)
  Lemma update_total : forall t u, exists u', update_subgroups t u = Ok u'.
  Proof.
    intros t u. unfold update_subgroups. destruct (mapM_total _ _ (fun g => add_time g t true false false false) (y_groups u)) as [gs ->]; [|cbn [bind]; eauto].
    intros g _. unfold add_time. simpl. eauto.
  Qed.

  Lemma refresh_ok : forall t u u', 0 <= t -> origin (y_groups u) -> on_refresh D labels t dt u = Ok u' ->
    all_dated (t + dt) (y_groups u') /\ table D labels (y_groups u') (y_slices u') /\ y_next u' = 0%nat /\ y_current u' = y_current u /\ y_app u' = y_app u.
  Proof.
    unfold on_refresh. intros t u u' Ht O H. destruct (update_subgroups (t + dt) u) as [u1|] eqn:E; [|discriminate]. cbn [bind] in H.
    destruct (update_ok (t + dt) u u1 ltac:(lia) O E) as (A1 & A2 & A3 & A4 & A5). destruct (set_pdf_ok _ _ _ _ H) as (B1 & B2 & B3 & B4 & B5).
    rewrite B1. split; [exact A1|]. split; [exact B5|]. split; [exact B2|]. split; congruence.
  Qed.

  (** ** The invariant, before a step at time [t] *)

  Definition running (t : Z) (u : daily) : Prop := exists R, latest_occurrence (d_refresh D) t R /\ R < t /\ 0 <= R /\
    all_dated (R + dt) (y_groups u) /\ table D labels (y_groups u) (y_slices u) /\
    let n := Z.of_nat (length (y_slices u)) in let k := (t - R - 1) / minutes 10 in
    0 < n /\ y_next u = Z.to_nat ((k + 1) mod n) /\ exists pdf, y_current u = Some pdf /\ at_ (y_slices u) (Z.to_nat (k mod n)) pdf.

  Definition inv (t : Z) (u : daily) : Prop := t mod us_per_day = d_refresh D /\ origin (y_groups u) \/ running t u.

  Lemma inv_origin : forall t u, inv t u -> origin (y_groups u).
  Proof. intros t u [[_ H]|(R & _ & _ & _ & H & _)]; [exact H|]. eapply dated_origin; exact H. Qed.

  (** After the call back: the slot of the next call of [next], if there is one. *)
  Definition ready_at (t : Z) (u : daily) : Prop := exists R, latest_occurrence (d_refresh D) t R /\ 0 <= R /\
    all_dated (R + dt) (y_groups u) /\ table D labels (y_groups u) (y_slices u) /\
    let n := Z.of_nat (length (y_slices u)) in
    if Z.eqb (minute_at t mod 10) 0 then y_next u = Z.to_nat ((t - R) / minutes 10 mod n)
    else 0 < n /\ y_next u = Z.to_nat (((t - R) / minutes 10 + 1) mod n) /\ exists pdf, y_current u = Some pdf /\ at_ (y_slices u) (Z.to_nat ((t - R) / minutes 10 mod n)) pdf.

  Lemma ten_pos : 0 < minutes 10.
  Proof. reflexivity. Qed.

  Lemma ready_refresh : forall t u u', 0 <= t -> t mod us_per_day = d_refresh D -> origin (y_groups u) -> on_refresh D labels t dt u = Ok u' ->
    ready_at t u' /\ y_app u' = y_app u.
  Proof.
    intros t u u' Ht Hr O H. destruct (refresh_ok t u u' Ht O H) as (A1 & A2 & A3 & A4 & A5). split; [|exact A5].
    exists t. split; [apply latest_at; exact Hr|]. split; [exact Ht|]. split; [exact A1|]. split; [exact A2|].
    assert (M : minute_at t mod 10 = 0).
    { assert (T := occurrence_ten (d_refresh D) r_ten t Hr). apply minute_ten; [|exact T]. eapply Z.divide_trans; [|exact T]. exists 10. reflexivity. }
    cbv zeta. rewrite M, Z.sub_diag, Z.div_0_l, Zmod_0_l by (pose proof ten_pos; lia). exact A3.
  Qed.

  Lemma ready_running : forall t u, (dt | t - d_refresh D) -> running t u -> ready_at t u.
  Proof.
    intros t u G (R & L & Lt & R0 & A & T & N & Nx & C). exists R. split; [exact L|]. split; [exact R0|]. split; [exact A|]. split; [exact T|].
    cbv zeta in *. pose proof (proj1 (proj2 L)) as LR. assert (M := minute_ten t (grid_minute (d_refresh D) dt dt_min r_ten t G)).
    assert (S := since_ten (d_refresh D) r_ten t R LR). destruct (Z.eqb_spec (minute_at t mod 10) 0) as [E|E].
    - rewrite Nx. f_equal. f_equal. apply slot_next; [apply ten_pos|]. apply S, M, E.
    - assert (X : (t - R - 1) / minutes 10 = (t - R) / minutes 10).
      { apply slot_same; [apply ten_pos|]. intro Dv. apply E, M, S, Dv. }
      rewrite X in *. auto.
  Qed.

  (** The body of a step. *)
  Lemma body_ok : forall i t u u', (dt | t - d_refresh D) -> ready_at t u -> step_body types i t u = Ok u' ->
    inv (t + dt) u' /\ exists pdf, y_current u' = Some pdf /\ in_force D dt subs labels t pdf /\ length (in_occ i) = length types /\
      occ_step (y_app u) pdf types (in_u i) (in_vol i) (in_vol2 i) (in_occ i) = Ok (y_app u') /\
      exists R, latest_occurrence (d_refresh D) t R /\ all_dated (R + dt) (y_groups u').
  Proof.
    intros i t u u' G (R & L & R0 & A & T & P) H. unfold step_body in H.
    destruct (Nat.eqb_spec (length (in_occ i)) (length types)) as [Lo|]; [|discriminate]. cbn [negb] in H. cbv zeta in P.
    assert (X : exists u1, y_groups u1 = y_groups u /\ y_slices u1 = y_slices u /\ y_app u1 = y_app u /\
      (let n := Z.of_nat (length (y_slices u)) in 0 < n /\ y_next u1 = Z.to_nat (((t - R) / minutes 10 + 1) mod n) /\
       exists pdf, y_current u1 = Some pdf /\ at_ (y_slices u) (Z.to_nat ((t - R) / minutes 10 mod n)) pdf) /\
      match y_current u1 with None => Err AttributeError | Some pdf =>
        bind (occ_step (y_app u1) pdf types (in_u i) (in_vol i) (in_vol2 i) (in_occ i)) (fun a => Ok (Daily (y_groups u1) (y_slices u1) (y_next u1) (y_current u1) a)) end = Ok u').
    { destruct (Z.eqb_spec (minute_at t mod 10) 0) as [E|E].
      - unfold next_slice in H. destruct (nth_error (y_slices u) (y_next u)) as [x|] eqn:Ex; [|discriminate]. cbn [bind] in H.
        exists (Daily (y_groups u) (y_slices u) (Nat.modulo (S (y_next u)) (length (y_slices u))) (Some x) (y_app u)). cbn [y_groups y_slices y_app y_next y_current] in *.
        split; [reflexivity|]. split; [reflexivity|]. split; [reflexivity|]. split; [|exact H]. cbv zeta.
        assert (Lx := at_lt _ _ _ _ Ex). split; [lia|]. split.
        + set (q := (t - R) / minutes 10) in *. set (n := length (y_slices u)) in *. rewrite P.
          assert (B := Z.mod_pos_bound q (Z.of_nat n) ltac:(lia)). rewrite <- (Z.add_mod_idemp_l q 1) by lia.
          apply Nat2Z.inj. rewrite Nat2Z.inj_mod, Nat2Z.inj_succ, !Z2Nat.id; [f_equal; lia| |lia]. apply Z.mod_pos_bound. lia.
        + exists x. split; [reflexivity|]. rewrite <- P. exact Ex.
      - cbn [bind] in H. exists u. destruct P as (P1 & P2 & P3). repeat (split; [reflexivity|]). split; [|exact H]. cbv zeta. auto. }
    destruct X as (u1 & G1 & G2 & G3 & (N & Nx & pdf & Ec & Hp) & H1). rewrite Ec in H1.
    destruct (occ_step (y_app u1) pdf types (in_u i) (in_vol i) (in_vol2 i) (in_occ i)) as [a|] eqn:Eo; [|discriminate]. cbn [bind] in H1. injection H1 as <-.
    cbn [y_groups y_slices y_app y_next y_current]. rewrite G1, G2 in *. split.
    - destruct (Z.eq_dec ((t + dt) mod us_per_day) (d_refresh D)) as [Er|Er]; [left; split; [exact Er|eapply dated_origin; exact A]|right].
      exists R. split; [apply (latest_step (d_refresh D) dt); auto|]. split; [destruct L; lia|]. split; [exact R0|]. split; [exact A|]. split; [exact T|].
      cbn [y_groups y_slices y_app y_next y_current].
      replace ((t + dt - R - 1) / minutes 10) with ((t - R) / minutes 10).
      + split; [exact N|]. split; [exact Nx|]. eauto.
      + symmetry. replace (t + dt - R - 1) with ((t - R) + dt - 1) by lia. apply slot_last; [exact dt_pos|apply ten_pos|exact dt_ten|].
        apply (since_grid (d_refresh D) dt); auto. apply (proj1 (proj2 L)).
    - exists pdf. split; [reflexivity|]. split; [|split; [exact Lo|split; [rewrite <- G3; exact Eo|eauto]]].
      destruct (T _ _ Hp) as [T1 T2]. destruct A as [A1 A2]. split; [congruence|]. intros k g acts Hg Ha.
      assert (Lk : (k < length (y_groups u))%nat) by (rewrite A1; eapply at_lt; exact Hg). destruct (lt_at _ _ _ Lk) as [g' Hg'].
      destruct (T2 k g' acts Hg' Ha) as [T3 T4]. split; [exact T3|]. intros j lab bo Hl Hb. destruct (T4 j lab bo Hl Hb) as (d & p & Ed & Ep & Lp & Hat).
      exists R, g', d, p. split; [exact L|]. split; [apply (A2 k); assumption|]. split; [exact Ed|]. split; [exact Ep|]. rewrite Lp. exact Hat.
  Qed.

  Lemma step_ok : forall i s s', step_size s = dt -> 0 <= now s -> (dt | now s - d_refresh D) -> inv (now s) (user s) -> daily_step D labels types i s = Ok s' ->
    advanced daily s s' /\ inv (now s') (user s') /\ exists pdf, y_current (user s') = Some pdf /\ in_force D dt subs labels (now s) pdf /\ length (in_occ i) = length types /\
      occ_step (y_app (user s)) pdf types (in_u i) (in_vol i) (in_vol2 i) (in_occ i) = Ok (y_app (user s')) /\
      exists R, latest_occurrence (d_refresh D) (now s) R /\ all_dated (R + dt) (y_groups (user s')).
  Proof.
    intros i s s' Hd Ht G I H. unfold daily_step, decorated in H. apply before_iff in H. destruct H as [Ad H]. split; [exact Ad|]. rewrite Hd in H.
    unfold advanced in Ad. rewrite Hd in Ad. destruct Ad as (-> & _). unfold time_of_day in H.
    destruct (Z.eqb_spec (now s mod us_per_day) (d_refresh D)) as [E|E].
    - destruct H as (u1 & H1 & H2). destruct (ready_refresh (now s) (user s) u1 Ht E (inv_origin _ _ I) H1) as [R1 R2].
      destruct (body_ok i (now s) u1 (user s') G R1 H2) as (B1 & pdf & B2). split; [exact B1|]. exists pdf. rewrite R2 in B2. exact B2.
    - destruct I as [[C _]|C]; [contradiction|]. apply (body_ok i (now s) (user s) (user s') G (ready_running _ _ G C) H).
  Qed.

  Lemma run_ok : forall l s s', step_size s = dt -> 0 <= now s -> (dt | now s - d_refresh D) -> inv (now s) (user s) -> daily_run D labels types l s = Ok s' ->
    step_size s' = dt /\ 0 <= now s' /\ (dt | now s' - d_refresh D) /\ inv (now s') (user s') /\ now s' = now s + Z.of_nat (length l) * dt.
  Proof.
    induction l as [|i l IH]; intros s s' Hd Ht G I H; cbn [daily_run] in H.
    - injection H as <-. repeat (split; [assumption|]). simpl. lia.
    - destruct (daily_step D labels types i s) as [s1|] eqn:E; [|discriminate]. cbn [bind] in H.
      destruct (step_ok i s s1 Hd Ht G I E) as ((N1 & N2 & _) & I1 & _). rewrite Hd in *.
      destruct (IH s1 s' N2 ltac:(lia)) as (A1 & A2 & A3 & A4 & A5); auto.
      + rewrite N1. replace (now s + dt - d_refresh D) with ((now s - d_refresh D) + dt) by lia. apply Z.divide_add_r; [exact G|apply Z.divide_refl].
      + repeat (split; [assumption|]). rewrite A5, N1. cbn [length]. lia.
  Qed.
End Run.
