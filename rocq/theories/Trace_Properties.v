(** * C147-C148: measured profiles of tracebase. *)

From Coq Require Import String List ZArith QArith Bool Arith Lia Lqa.
From Verif Require Import Prelude PreludeFacts SpecBase SpecBaseFacts Trace_Model Trace_Spec Trace_Proofs Trace_DictProofs.
Import ListNotations.

(** ** C147: resampling *)

(** One value per second from the first to the last reading, on the line of the
    two readings around it; a reading is met exactly. *)
Theorem C147_interpolation : forall r a b, in_order r -> first_reading r a -> final_reading r b ->
  exists load, per_second r = Ok load /\ Z.of_nat (length load) = (fst b - fst a)%Z /\
  (forall k v, at_ load k v -> exists j p q, at_ r j p /\ at_ r (S j) q /\
    (fst p <= fst a + Z.of_nat k < fst q)%Z /\ on_line p q (fst a + Z.of_nat k) v) /\
  (forall j p q, at_ r j p -> at_ r (S j) q -> (fst p < fst q)%Z ->
    exists k v, Z.of_nat k = (fst p - fst a)%Z /\ at_ load k v /\ v == snd p).
Proof.
  intros r a b H Ha Hb. destruct (per_second_spec r a b H Ha Hb) as (load & E & L & S). exists load.
  split; [exact E|]. split; [exact L|]. split; [exact S|]. intros j p q Hp Hq Hlt.
  exact (per_second_reading r a load j p H Ha E Hp (ex_intro _ q (conj Hq Hlt))).
Qed.
Print Assumptions C147_interpolation.

(** Whole steps of at least two seconds: each value is the mean of its step,
    padded with zeros, and the energy is conserved.  The number of values is one
    more than the number of full steps, see [C147_zero_step_refuted]. *)
Theorem C147_average_partial : forall w load, (2 <= w)%nat ->
  exists out, resample (Z.of_nat w * 1000000) load = Ok out /\
    length out = (length load / w + 1)%nat /\
    (forall k x, at_ out k x -> mean_of load w k x) /\
    total out * inject_Z (Z.of_nat w) == total load.
Proof.
  intros w load H. apply resample_spec; [|exact H]. apply Z.quot_mul. discriminate.
Qed.
Print Assumptions C147_average_partial.

(** A step of one second leaves the seconds. *)
Theorem C147_second : forall load, resample 1000000 load = Ok load.
Proof. reflexivity. Qed.
Print Assumptions C147_second.

(** Values of a profile stay between the readings and zero. *)
Theorem C147_bounds : forall r w p lo hi, in_order r -> (1 <= w)%nat -> lo <= 0 -> 0 <= hi ->
  (forall i a, at_ r i a -> lo <= snd a <= hi) ->
  parse_profile (Z.of_nat w * 1000000) r = Ok p -> Forall (fun x => lo <= x <= hi) p.
Proof.
  intros r w p lo hi Ho Hw Hlo Hhi Hr Hp. unfold parse_profile in Hp.
  destruct r as [|a0 r0] eqn:Er; [discriminate|]. rewrite <- Er in *.
  assert (Fa : first_reading r a0) by (subst r; reflexivity).
  destruct (lt_at _ r (length r - 1)) as [b Fb]; [subst r; cbn [length]; lia|].
  destruct (per_second_spec r a0 b Ho Fa Fb) as (load & E & _ & S). rewrite E in Hp. cbn [bind] in Hp.
  assert (FL : Forall (fun y => lo <= y <= hi) load).
  { apply Forall_forall. intros y Hy. apply in_at in Hy as [k Hk]. destruct (S k y Hk) as (j & p1 & q1 & A & B & C & D).
    exact (between_line _ _ _ _ lo hi C D (Hr _ _ A) (Hr _ _ B)). }
  destruct (Nat.eq_dec w 1) as [->|N].
  - injection Hp as <-. exact FL.
  - destruct (C147_average_partial w load ltac:(lia)) as (out & E2 & _ & M & _). rewrite E2 in Hp. injection Hp as <-.
    apply Forall_forall. intros x Hx. apply in_at in Hx as [k Hk]. exact (mean_bounds load w k x lo hi Hw (M k x Hk) Hlo Hhi FL).
Qed.
Print Assumptions C147_bounds.

(** Refused: a file without readings, steps below one second. *)
Theorem C147_errors : forall step r,
  (r = [] -> parse_profile step r = Err IndexError) /\
  (r <> [] -> (-1000000 < step < 1000000)%Z -> parse_profile step r = Err ZeroDivisionError) /\
  (r <> [] -> (step <= -1000000)%Z -> parse_profile step r = Err ValueError) /\
  (r <> [] -> (1000000 <= step)%Z -> exists p, parse_profile step r = Ok p).
Proof.
  intros step r. unfold parse_profile. destruct r as [|[s y] r]; [split; [reflexivity|repeat split; congruence]|].
  cbn [per_second bind]. set (load := map _ _). clearbody load. split; [discriminate|]. unfold resample. split; [|split].
  - intros _ H. assert (E : Z.quot step 1000000 = 0%Z).
    { destruct (Z_lt_le_dec step 0).
      - replace step with (- - step)%Z by lia. rewrite Z.quot_opp_l by discriminate. rewrite Z.quot_small by lia. reflexivity.
      - apply Z.quot_small. lia. }
    rewrite E. reflexivity.
  - intros _ H. assert (E : (Z.quot step 1000000 <= -1)%Z).
    { replace step with (- - step)%Z by lia. rewrite Z.quot_opp_l by discriminate. rewrite Z.quot_div_nonneg by lia.
      assert (1 <= - step / 1000000)%Z by (apply Z.div_le_lower_bound; lia). lia. }
    set (q := Z.quot step 1000000) in *. clearbody q.
    replace (q =? 1)%Z with false by (symmetry; apply Z.eqb_neq; lia). replace (q =? 0)%Z with false by (symmetry; apply Z.eqb_neq; lia).
    pose proof (Z.mod_neg_bound (Z.of_nat (length load)) q ltac:(lia)) as B.
    replace (q - Z.modulo (Z.of_nat (length load)) q <? 0)%Z with true by (symmetry; apply Z.ltb_lt; lia). reflexivity.
  - intros _ H. assert (E : (1 <= Z.quot step 1000000)%Z).
    { rewrite Z.quot_div_nonneg by lia. apply Z.div_le_lower_bound; lia. }
    set (q := Z.quot step 1000000) in *. clearbody q.
    destruct (q =? 1)%Z; [eauto|]. replace (q =? 0)%Z with false by (symmetry; apply Z.eqb_neq; lia).
    pose proof (Z.mod_pos_bound (Z.of_nat (length load)) q ltac:(lia)) as B.
    replace (q - Z.modulo (Z.of_nat (length load)) q <? 0)%Z with false by (symmetry; apply Z.ltb_ge; lia). eauto.
Qed.
Print Assumptions C147_errors.

(** A measurement of whole steps gets a further step of zero load. *)
Theorem C147_zero_step_refuted : exists w load out,
  (length load mod w = 0)%nat /\ (2 <= w)%nat /\ resample (Z.of_nat w * 1000000) load = Ok out /\
  (length out * w > length load)%nat /\ exists x, at_ out (length load / w) x /\ x == 0 /\ Forall (fun y => 0 < y) load.
Proof.
  exists 2%nat, [4; 6; 8; 2]. eexists. split; [reflexivity|]. split; [lia|]. split; [reflexivity|].
  split; [apply Nat.ltb_lt; vm_compute; reflexivity|]. eexists. split; [reflexivity|]. split; [vm_compute; reflexivity|]. repeat constructor; lra.
Qed.
Print Assumptions C147_zero_step_refuted.

(** Fractions of a second are dropped: with steps of one and a half seconds the
    profile has one value per second and half too much energy. *)
Theorem C147_fraction_refuted : exists step load out, (0 < step)%Z /\ resample step load = Ok out /\
  ~ total out * (inject_Z step / 1000000) == total load.
Proof.
  exists 1500000%Z, [2; 2; 2]. eexists. split; [lia|]. split; [reflexivity|]. vm_compute. discriminate.
Qed.
Print Assumptions C147_fraction_refuted.

Example C147_case :
  match parse_profile 2000000 [(10%Z, 0); (12%Z, 4); (12%Z, 8); (15%Z, 2)] with Ok l => map Qred l | Err _ => [] end = [1; 7; 2].
Proof. vm_compute. reflexivity. Qed.

(** ** C148: dictionaries *)

(** 'full': the files of known directories and nothing else; successful exactly
    when every file is. *)
Theorem C148_full_partial : forall table chosen step dirs, one_file table dirs ->
  (forall d, parse_profiles table chosen step dirs "full" = Ok d ->
    (forall type file p, entry d type file p <-> exists r, recorded table dirs type file r /\ parse_profile step r = Ok p) /\
    (forall type, dget String.eqb d type <> None <-> exists dir files, In (dir, files) dirs /\ dget String.eqb table dir = Some type)) /\
  ((exists d, parse_profiles table chosen step dirs "full" = Ok d) <->
    forall type file r, recorded table dirs type file r -> exists p, parse_profile step r = Ok p).
Proof.
  intros table chosen step dirs One. change (parse_profiles table chosen step dirs "full") with (full_profiles table step [] dirs).
  split; [|split; [intros [d H] type file r Hr; exact (proj1 (proj1 (proj2 (proj2 (proj2 (full_spec _ _ _ _ _ H)))) type file r Hr))|apply full_ok]].
  intros d H. destruct (full_spec _ _ _ _ _ H) as (_ & A & _ & B & C). split.
  - intros type file p. split.
    + intro E. destruct (A _ _ _ E) as [(m & M & _)|X]; [discriminate|exact X].
    + intros (r & Hr & Hp). destruct (B type file r Hr) as [_ (p' & E)]. destruct (A _ _ _ E) as [(m & M & _)|(r' & Hr' & Hp')]; [discriminate|].
      rewrite <- (One type file r r' Hr Hr') in Hp'. rewrite Hp in Hp'. injection Hp' as <-. exact E.
  - intro type. rewrite C. split; [intros [X|X]; [exfalso; apply X; reflexivity|exact X]|auto].
Qed.
Print Assumptions C148_full_partial.

(** Without the condition every entry is still the profile of a file with that
    name, and every file has an entry. *)
Theorem C148_names : forall table chosen step dirs d, parse_profiles table chosen step dirs "full" = Ok d ->
  (forall type file p, entry d type file p -> exists r, recorded table dirs type file r /\ parse_profile step r = Ok p) /\
  (forall type file r, recorded table dirs type file r -> exists p, entry d type file p).
Proof.
  intros table chosen step dirs d H. destruct (full_spec _ _ _ _ _ H) as (_ & A & _ & B & _). split.
  - intros type file p E. destruct (A _ _ _ E) as [(m & M & _)|X]; [discriminate|exact X].
  - intros type file r Hr. exact (proj2 (B type file r Hr)).
Qed.
Print Assumptions C148_names.

(** Two directories of one type with a file of the same name: one is lost. *)
Theorem C148_lost_refuted : exists table dirs d type file r p,
  parse_profiles table [] 1000000 dirs "full" = Ok d /\ recorded table dirs type file r /\
  parse_profile 1000000 r = Ok p /\ ~ entry d type file p.
Proof.
  exists [("Projector", "projector"); ("VideoProjector", "projector")]%string,
    [("Projector", [("a.csv", [(0%Z, 5); (1%Z, 5)])]); ("VideoProjector", [("a.csv", [(0%Z, 7); (1%Z, 7)])])]%string.
  eexists. exists "projector"%string, "a.csv"%string, [(0%Z, 5); (1%Z, 5)]. eexists. split; [vm_compute; reflexivity|]. split.
  - exists "Projector"%string. eexists. split; [left; reflexivity|]. split; [reflexivity|left; reflexivity].
  - split; [vm_compute; reflexivity|]. intros (m & M & E). injection M as <-. discriminate E.
Qed.
Print Assumptions C148_lost_refuted.

(** 'switchedON': the chosen files among the full profiles, each cut to its part
    above 6 W. *)
Theorem C148_on : forall table chosen step dirs d, parse_profiles table chosen step dirs "switchedON" = Ok d ->
  exists all, parse_profiles table chosen step dirs "full" = Ok all /\
  (forall type file p, entry d type file p -> In file chosen /\ exists load, entry all type file load /\ on_part load p) /\
  (forall type file load, In file chosen -> entry all type file load -> exists p, entry d type file p /\ on_part load p).
Proof.
  intros table chosen step dirs d H.
  change (bind (full_profiles table step [] dirs) (fun all => on_profiles chosen [] all) = Ok d) in H.
  change (parse_profiles table chosen step dirs "full") with (full_profiles table step [] dirs).
  destruct (full_profiles table step [] dirs) as [all|] eqn:E; [|discriminate]. cbn [bind] in H. exists all. split; [reflexivity|].
  assert (T : tidy all) by (apply (proj1 (full_spec _ _ _ _ _ E)); split; [constructor|intros k m []]).
  destruct (on_spec _ _ _ _ T H) as (A & _ & C). split.
  - intros type file p Hp. destruct (A _ _ _ Hp) as [(m & M & _)|(X & load & Y & Z)]; [discriminate|].
    split; [exact X|]. exists load. split; [exact Y|]. exact (crop_spec _ _ Z).
  - intros type file load Hc Hl. destruct (C _ _ _ Hc Hl) as (p & P1 & P2). exists p. split; [exact P2|exact (crop_spec _ _ P1)].
Qed.
Print Assumptions C148_on.

(** The part is determined by the load. *)
Theorem C148_part : forall load p q, on_part load p -> on_part load q -> p = q.
Proof.
  assert (G : forall a p b a' p' b', List.app a (List.app p b) = List.app a' (List.app p' b') ->
    Forall (fun x => x <= 6) a -> Forall (fun x => x <= 6) a' ->
    (exists x t, p = x :: t /\ 6 < x) -> (exists x t, p' = x :: t /\ 6 < x) -> List.app p b = List.app p' b').
  { induction a as [|x a IH]; intros p b a' p' b' E Fa Fa' Hp Hp'.
    - destruct a' as [|x' a']; [exact E|]. destruct Hp as (x & t & -> & Hx). cbn in E. injection E as <- _. inversion Fa'; subst. lra.
    - destruct a' as [|x' a']; [destruct Hp' as (y & t & -> & Hy); cbn in E; injection E as <- _; inversion Fa; subst; lra|].
      cbn in E. injection E as <- E. inversion Fa; inversion Fa'; subst. eapply IH; eassumption. }
  intros load p q (a & b & -> & Fa & Fb & Hp & (xl & tl & Ep & Hl)) (a' & b' & E & Fa' & Fb' & Hq & (xl' & tl' & Eq & Hl')).
  apply G in E; try assumption. apply (f_equal (@rev Q)) in E. rewrite !rev_app_distr in E.
  assert (R : List.app (rev b) (List.app (rev p) []) = List.app (rev b') (List.app (rev q) [])) by (rewrite !app_nil_r; exact E).
  apply G in R.
  - rewrite !app_nil_r in R. apply (f_equal (@rev Q)) in R. rewrite !rev_involutive in R. exact R.
  - apply Forall_rev. exact Fb.
  - apply Forall_rev. exact Fb'.
  - exists xl, (rev tl). rewrite Ep, rev_app_distr. auto.
  - exists xl', (rev tl'). rewrite Eq, rev_app_distr. auto.
Qed.
Print Assumptions C148_part.

(** A chosen profile never above 6 W is refused; any other kind too. *)
Theorem C148_errors : forall table chosen step dirs all, parse_profiles table chosen step dirs "full" = Ok all ->
  ((exists d, parse_profiles table chosen step dirs "switchedON" = Ok d) <->
    forall type file load, In file chosen -> entry all type file load -> exists x, In x load /\ 6 < x) /\
  (forall e, parse_profiles table chosen step dirs "switchedON" = Err e -> e = IndexError) /\
  (forall kind, kind <> "full"%string -> kind <> "switchedON"%string -> parse_profiles table chosen step dirs kind = Err NotImplementedError).
Proof.
  intros table chosen step dirs all E. change (full_profiles table step [] dirs = Ok all) in E.
  assert (T : tidy all) by (apply (proj1 (full_spec _ _ _ _ _ E)); split; [constructor|intros k m []]).
  change (parse_profiles table chosen step dirs "switchedON") with (bind (full_profiles table step [] dirs) (fun all => on_profiles chosen [] all)).
  rewrite E. cbn [bind]. split; [|split].
  - split.
    + intros [d H] type file load Hc Hl. destruct (on_spec _ _ _ _ T H) as (_ & _ & C). destruct (C _ _ _ Hc Hl) as (p & P & _).
      apply crop_total. eauto.
    + intro H. apply on_ok; [exact T|]. intros type file load Hc Hl. apply crop_total. eauto.
  - intros e. apply on_err.
  - intros kind N1 N2. unfold parse_profiles. destruct (String.eqb_spec kind "switchedON"); [contradiction|].
    destruct (String.eqb_spec kind "full"); [contradiction|]. reflexivity.
Qed.
Print Assumptions C148_errors.

(** If the readings cannot be turned into profiles, 'switchedON' fails the same
    way. *)
Theorem C148_same_error : forall table chosen step dirs e,
  parse_profiles table chosen step dirs "full" = Err e -> parse_profiles table chosen step dirs "switchedON" = Err e.
Proof.
  intros table chosen step dirs e H. change (full_profiles table step [] dirs = Err e) in H.
  change (bind (full_profiles table step [] dirs) (fun all => on_profiles chosen [] all) = Err e). rewrite H. reflexivity.
Qed.
Print Assumptions C148_same_error.

Example C148_case :
  match parse_profiles [("Iron", "iron"); ("Lamp", "lamp")]%string ["b.csv"]%string 1000000
    [("Iron", [("a.csv", [(0%Z, 5); (1%Z, 5)]); ("b.csv", [(0%Z, 0); (1%Z, 50); (2%Z, 3); (3%Z, 40); (4%Z, 0); (6%Z, 0)])]);
     ("Radio", [("b.csv", [])])]%string "switchedON"
  with Ok d => map (fun e => (fst e, map (fun f => (fst f, map Qred (snd f))) (snd e))) d | Err _ => [] end =
  [("iron", [("b.csv", [50; 3; 40])])]%string.
Proof. vm_compute. reflexivity. Qed.
