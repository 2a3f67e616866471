(** * Daily activity profiles (C176-C179). *)

From Coq Require Import String List ZArith QArith Bool Arith Lia.
From Verif Require Import Prelude PreludeFacts SpecBase SpecBaseFacts Parse_Model Parse_DurProofs GTou_Proofs Time_Model Time_Spec Time_Proofs
  Subgroup_Model Subgroup_Spec Subgroup_Proofs Appliance_Model Appliance_Spec Appliance_Proofs Appliance_RunProofs AppSetup_Model AppSetup_Proofs AppSetup_InitProofs
  Daily_Model Daily_Spec Daily_Proofs Daily_RunProofs.
Import ListNotations.
Local Open Scope Z_scope.

(** What is known before a step of an aligned run. *)
Lemma reached : forall c types s0 l s, proper c -> c_aligned c -> new c = Ok (types, s0) -> daily_run (c_data c) (c_labels c) types l s0 = Ok s ->
  step_size s = d_step (c_data c) /\ 0 <= now s /\ (d_step (c_data c) | now s - d_refresh (c_data c)) /\
  inv (c_data c) (c_labels c) (c_subs c) (d_step (c_data c)) (now s) (user s) /\ now s = c_start c + Z.of_nat (length l) * d_step (c_data c).
Proof.
  intros c types s0 l s (P1 & P2 & P3 & P4) Al N R. destruct (make_inv _ _ _ _ _ _ _ _ _ _ _ _ _ _ _ _ P2 P3 P4 types s0 P1 Al N) as (N1 & N2 & N3).
  destruct Al as (A1 & A2 & A3 & A4 & A5 & A6 & A7). unfold c_labels in *.
  assert (H0 : 0 <= now s0) by (rewrite N1; unfold us_per_day in A7; lia). assert (Hg : (d_step (c_data c) | now s0 - d_refresh (c_data c))) by (rewrite N1; exact A6).
  rewrite <- N1 in N3. destruct (run_ok (c_data c) (activities_labels (c_related c)) types (c_subs c) (d_step (c_data c)) P1 A1 A2 A3 A4 A5 l s0 s N2 H0 Hg N3 R) as (B1 & B2 & B3 & B4 & B5).
  repeat (split; [assumption|]). rewrite <- N1. exact B5.
Qed.

Lemma after_step : forall c types s0 l s i s', proper c -> c_aligned c -> new c = Ok (types, s0) -> daily_run (c_data c) (c_labels c) types l s0 = Ok s ->
  daily_step (c_data c) (c_labels c) types i s = Ok s' ->
  exists pdf, y_current (user s') = Some pdf /\ in_force (c_data c) (d_step (c_data c)) (c_subs c) (c_labels c) (now s) pdf /\ length (in_occ i) = length types /\
      occ_step (y_app (user s)) pdf types (in_u i) (in_vol i) (in_vol2 i) (in_occ i) = Ok (y_app (user s')) /\
      exists R, latest_occurrence (d_refresh (c_data c)) (now s) R /\ all_dated (c_subs c) (R + d_step (c_data c)) (y_groups (user s')).
Proof.
  intros c types s0 l s i s' P Al N R H. destruct (reached c types s0 l s P Al N R) as (B1 & B2 & B3 & B4 & _). destruct P as (P1 & _). destruct Al as (A1 & A2 & A3 & A4 & A5 & _).
  destruct (step_ok (c_data c) (c_labels c) types (c_subs c) (d_step (c_data c)) P1 A1 A2 A3 A4 A5 i s s' B1 B2 B3 B4 H) as (_ & _ & X). exact X.
Qed.

(** ** C176: the profile in force *)

(** In every step of every run: the ten-minute slot of the current time since the last
    refresh, in the profiles loaded at that refresh.  The clock is that of the start plus
    the steps taken.  (Missing: other step sizes and unaligned starts, see below.) *)
Theorem C176_slot_partial : forall c types s0 l s i s', proper c -> c_aligned c -> new c = Ok (types, s0) ->
  daily_run (c_data c) (c_labels c) types l s0 = Ok s -> daily_step (c_data c) (c_labels c) types i s = Ok s' ->
  now s = c_start c + Z.of_nat (length l) * d_step (c_data c) /\
  exists pdf, y_current (user s') = Some pdf /\ in_force (c_data c) (d_step (c_data c)) (c_subs c) (c_labels c) (now s) pdf /\
    occ_step (y_app (user s)) pdf types (in_u i) (in_vol i) (in_vol2 i) (in_occ i) = Ok (y_app (user s')).
Proof.
  intros c types s0 l s i s' P Al N R H. split; [apply (reached c types s0 l s P Al N R)|].
  destruct (after_step c types s0 l s i s' P Al N R H) as (pdf & X1 & X2 & _ & X3 & _). eauto.
Qed.

(** The profiles at a given time do not depend on the start of the simulation, on the
    draws or on the occupancies. *)
Theorem C176_start_free_partial : forall c c' types types' s0 s0' l l' s s' i i' z z', proper c -> proper c' -> c_aligned c -> c_aligned c' ->
  c_data c' = c_data c -> content_only (c_data c) -> c_subs c' = c_subs c -> c_related c' = c_related c ->
  new c = Ok (types, s0) -> new c' = Ok (types', s0') ->
  daily_run (c_data c) (c_labels c) types l s0 = Ok s -> daily_run (c_data c') (c_labels c') types' l' s0' = Ok s' -> now s = now s' ->
  daily_step (c_data c) (c_labels c) types i s = Ok z -> daily_step (c_data c') (c_labels c') types' i' s' = Ok z' ->
  y_current (user z) = y_current (user z').
Proof.
  intros c c' types types' s0 s0' l l' s s' i i' z z' P P' Al Al' Ed Co Es Er N N' R R' En H H'.
  destruct (after_step c types s0 l s i z P Al N R H) as (pdf & X1 & X2 & _). destruct (after_step c' types' s0' l' s' i' z' P' Al' N' R' H') as (pdf' & Y1 & Y2 & _).
  rewrite X1, Y1. f_equal. unfold c_labels in *. rewrite Ed, Es, Er, <- En in Y2. eapply in_force_fun; [exact Co|exact X2|exact Y2].
Qed.

(** A step can fail only because of the loader or missing data at a refresh, an empty
    profile, the number of occupancies, or inside the appliances with the right profile;
    the profile is never unset. *)
Theorem C176_errors : forall c types s0 l s i e, proper c -> c_aligned c -> new c = Ok (types, s0) ->
  daily_run (c_data c) (c_labels c) types l s0 = Ok s -> daily_step (c_data c) (c_labels c) types i s = Err e ->
  e = AssertionError /\ length (in_occ i) <> length types \/
  now s mod us_per_day = d_refresh (c_data c) /\ on_refresh (c_data c) (c_labels c) (now s) (d_step (c_data c)) (user s) = Err e \/
  e = StopIteration /\ (exists g d lab, d_load (c_data c) g = Ok d /\ In lab (c_labels c) /\ dget String.eqb d lab = Some []) \/
  exists pdf, in_force (c_data c) (d_step (c_data c)) (c_subs c) (c_labels c) (now s) pdf /\
    occ_step (y_app (user s)) pdf types (in_u i) (in_vol i) (in_vol2 i) (in_occ i) = Err e.
Proof.
  intros c types s0 l s i e P Al N R H. destruct (reached c types s0 l s P Al N R) as (B1 & B2 & B3 & B4 & _). destruct P as (P1 & _). destruct Al as (A1 & A2 & A3 & A4 & A5 & _).
  exact (step_fails (c_data c) (c_labels c) types (c_subs c) (d_step (c_data c)) A1 A2 A5 i s e B1 B2 B3 B4 H).
Qed.

(** A start that is not a whole number of steps away from the refresh time: the profiles
    are those of the day of the start forever. *)
Theorem C176_never_refreshed : forall c types s0 l s, proper c -> 0 < d_step (c_data c) -> (d_step (c_data c) | us_per_day) ->
  0 <= d_refresh (c_data c) < us_per_day -> ~ (d_step (c_data c) | c_start c - d_refresh (c_data c)) -> new c = Ok (types, s0) ->
  daily_run (c_data c) (c_labels c) types l s0 = Ok s -> y_groups (user s) = y_groups (user s0) /\
  now s = c_start c + Z.of_nat (length l) * d_step (c_data c).
Proof.
  intros c types s0 l s (P1 & P2 & P3 & P4) Hd Hday Hr Ng N R.
  destruct (make_any _ _ _ _ _ _ _ _ _ _ _ _ _ _ _ _ P2 P3 P4 types s0 N Hd Hr) as (N1 & N2 & _). split.
  - eapply run_unaligned; [rewrite N2; exact Hd|rewrite N2; exact Hday|rewrite N1, N2; exact Ng|exact Hr|exact R].
  - clear - R N1 N2. rewrite <- N1, <- N2. clear N1 N2. revert s0 R. induction l as [|i l IH]; intros s0 R; cbn [daily_run] in R; [injection R as <-; simpl; lia|].
    destruct (daily_step _ _ _ _ s0) as [s1|] eqn:E; [|discriminate]. cbn [bind] in R. pose proof (step_advances _ _ _ _ _ _ E) as (M1 & M2 & _).
    rewrite (IH s1 R), M1, M2. cbn [length]. lia.
Qed.

(** *** Examples *)

(** Two activities; the profiles of the week end differ from those of the week. *)
Definition ex_data (refresh step : Z) : data := Data (fun g =>
  match get g "weekday" with
  | Some v => if value_eqb v week_end then Ok [("tv"%string, [[0; 3 # 4]; [0; 1]]%Q); ("cook"%string, [[0; 1 # 4]; [0; 1 # 5]]%Q)]
              else Ok [("cook"%string, [[0; 1 # 2]; [0; 1 # 3]; [0; 1 # 4]; [0; 1 # 6]]%Q); ("tv"%string, [[0; 1]; [0; 1]; [0; 1]; [0; 1]]%Q)]
  | None => Err KeyError
  end) refresh step.

Definition oven : app := App "oven" 0 2000 false 30 0 false 0 true (1 # 2) 0.
Definition telly : app := App "tv" 1 100 false 60 0 false 0 true (1 # 10) 0.
Definition ex_in : step_in := StepIn (fun _ _ => 9 # 10) (fun _ _ => 0%nat) (fun _ _ => 0%nat) [1; 1].

(** Friday 2021-01-01, 00:00. *)
Definition friday : Z := 737790 * us_per_day.

Definition ex_setup (refresh step start : Z) (subs : list subgroup) : setup :=
  Setup (ex_data refresh step) None start subs [1; 1] [telly; oven] ["tv"%string; "cook"%string] (fun types => Ok (map (fun _ => [true; true]) types))
    Nothing (Ok []) (Ok []) (fun _ _ => 0%nat) (fun _ _ => 0%nat) (fun _ _ => 0) None (fun _ => ex_in).

Definition houses : list subgroup := [[("n_residents"%string, VInt 1)]; [("n_residents"%string, VInt 2); ("quarter"%string, VInt 3)]].

Lemma ex_proper : forall refresh step start, proper (ex_setup refresh step start houses).
Proof.
  intros. split; [|split; [reflexivity|split]].
  - intros [|[|[|i]]] g H; try discriminate; injection H as <-; repeat constructor; simpl; intuition discriminate.
  - intros types owned H. injection H as <-. split; [apply map_length|]. intros h row H. unfold at_ in H. rewrite nth_error_map in H.
    destruct (nth_error types h); [|discriminate]. injection H as <-. reflexivity.
  - intros k h j. simpl. unfold Qle. simpl. lia.
Qed.

(** The probabilities used after some steps, one household and activity after the other. *)
Definition used (c : setup) (l : list step_in) : option (list (list (list Q))) :=
  match new c with
  | Ok (types, s) => match daily_run (c_data c) (c_labels c) types l s with Ok s' => y_current (user s') | Err _ => None end
  | Err _ => None
  end.

(** Refresh at 23:40, ten minute steps, start on Friday at 23:50 after one initialization step. *)
Example C176_example :
  c_aligned (ex_setup (minutes 1420) (minutes 10) (friday + minutes 1430) houses) /\
  used (ex_setup (minutes 1420) (minutes 10) (friday + minutes 1430) houses) (repeat ex_in 3) = Some [[[0; 1 # 6]; [0; 1]]; [[0; 1 # 6]; [0; 1]]]%Q /\
  c_labels (ex_setup (minutes 1420) (minutes 10) (friday + minutes 1430) houses) = ["cook"; "tv"]%string.
Proof.
  split; [|vm_compute; auto]. split; [reflexivity|]. split; [exists 10; reflexivity|]. split; [exists 1; reflexivity|]. split; [vm_compute; split; congruence|].
  split; [exists 142; reflexivity|]. split; [exists 106241761; reflexivity|]. vm_compute. congruence.
Qed.

(** *** Where it fails *)

(** In force at [t] means: the slot of [t] in the only profile. *)
Lemma const_slot : forall P r step subs t R pdf g, latest_occurrence r t R -> at_ subs 0 g ->
  in_force (Data (fun _ => Ok [("cook"%string, P)]) r step) step subs ["cook"%string] t pdf ->
  exists by_occ rest, pdf = [by_occ] :: rest /\ at_ P (Z.to_nat ((t - R) / minutes 10 mod Z.of_nat (length P))) by_occ.
Proof.
  intros P r step subs t R pdf g L Hg [L1 F]. destruct subs as [|g0 subs]; [discriminate Hg|]. destruct pdf as [|acts rest]; [discriminate L1|].
  destruct (F 0%nat g0 acts eq_refl eq_refl) as [L2 F2]. destruct acts as [|bo [|]]; try discriminate L2.
  destruct (F2 0%nat "cook"%string bo eq_refl eq_refl) as (R' & g' & d & p & L' & _ & Ed & Ep & Hp). cbn [d_refresh d_load] in *.
  assert (R' = R) by (eapply latest_fun; eauto). subst R'. injection Ed as <-. simpl in Ep. injection Ep as <-. exists bo, rest. auto.
Qed.

Definition four_slots : list (list Q) := [[0; 1 # 2]; [0; 1 # 3]; [0; 1 # 4]; [0; 1 # 6]]%Q.
Definition const_setup (step : Z) (start : Z) : setup :=
  Setup (Data (fun _ => Ok [("cook"%string, four_slots)]) 0 step) None start [[("n_residents"%string, VInt 1)]] [1] [oven] ["cook"%string] (fun types => Ok (map (fun _ => [true]) types))
    Nothing (Ok []) (Ok []) (fun _ _ => 0%nat) (fun _ _ => 0%nat) (fun _ _ => 0) None (fun _ => ex_in).
Definition one_in : step_in := StepIn (fun _ _ => 9 # 10) (fun _ _ => 0%nat) (fun _ _ => 0%nat) [1].

Lemma const_proper : forall step start, proper (const_setup step start).
Proof.
  intros. split; [|split; [reflexivity|split]].
  - intros [|[|i]] g H; try discriminate; injection H as <-; repeat constructor; simpl; intuition discriminate.
  - intros types owned H. injection H as <-. split; [apply map_length|]. intros h row H. unfold at_ in H. rewrite nth_error_map in H.
    destruct (nth_error types h); [|discriminate]. injection H as <-. reflexivity.
  - intros k h j. simpl. unfold Qle. simpl. lia.
Qed.

Lemma friday_latest : forall x, 0 <= x < us_per_day -> latest_occurrence 0 (friday + x) friday.
Proof.
  intros x Hx. split; [lia|]. split; [reflexivity|]. intros d Hd Hle. unfold friday, us_per_day in *. assert (E := Z.div_mod d 86400000000 ltac:(lia)). rewrite Hd in E.
  assert (d / 86400000000 <= 737790); [|lia]. apply Z.lt_succ_r. apply Z.div_lt_upper_bound; lia.
Qed.

(** A run whose last step uses the second slot. *)
Definition second_slot (step : Z) (n : nat) : bool :=
  match new (const_setup step friday) with
  | Ok (types, s) =>
      match daily_run (c_data (const_setup step friday)) ["cook"%string] types (repeat one_in n) s with
      | Ok s1 => match daily_step (c_data (const_setup step friday)) ["cook"%string] types one_in s1 with
                 | Ok s2 => (now s1 =? friday + Z.of_nat n * step) && match y_current (user s2) with Some [[[a; b]]] => Qeq_bool a 0 && Qeq_bool b (1 # 3) | _ => false end
                 | Err _ => false
                 end
      | Err _ => false
      end
  | Err _ => false
  end.

Lemma second_refutes : forall step n, second_slot step n = true -> 0 <= Z.of_nat n * step < us_per_day -> (Z.of_nat n * step) / minutes 10 mod 4 <> 1 ->
  exists types s0 s s' pdf, new (const_setup step friday) = Ok (types, s0) /\
    daily_run (c_data (const_setup step friday)) (c_labels (const_setup step friday)) types (repeat one_in n) s0 = Ok s /\
    daily_step (c_data (const_setup step friday)) (c_labels (const_setup step friday)) types one_in s = Ok s' /\
    y_current (user s') = Some pdf /\ ~ in_force (c_data (const_setup step friday)) step (c_subs (const_setup step friday)) (c_labels (const_setup step friday)) (now s) pdf.
Proof.
  intros step n E B N. unfold second_slot in E. destruct (new (const_setup step friday)) as [[types s0]|] eqn:E0; [|discriminate].
  destruct (daily_run _ _ _ _ _) as [s|] eqn:E1; [|discriminate]. destruct (daily_step _ _ _ _ s) as [s'|] eqn:E2; [|discriminate].
  apply andb_true_iff in E. destruct E as [En Ec]. apply Z.eqb_eq in En. destruct (y_current (user s')) as [pdf|] eqn:E3; [|discriminate].
  exists types, s0, s, s', pdf. split; [reflexivity|]. split; [exact E1|]. split; [exact E2|]. split; [exact E3|]. intro F. rewrite En in F.
  destruct (const_slot four_slots 0 step [[("n_residents"%string, VInt 1)]] _ friday pdf [("n_residents"%string, VInt 1)] (friday_latest _ B) eq_refl F) as (bo & rest & -> & Hp).
  replace (friday + Z.of_nat n * step - friday) with (Z.of_nat n * step) in Hp by lia. change (Z.of_nat (length four_slots)) with 4 in Hp.
  set (k := (Z.of_nat n * step) / minutes 10 mod 4) in *. assert (K : 0 <= k < 4) by (apply Z.mod_pos_bound; lia).
  assert (C : k = 0 \/ k = 2 \/ k = 3) by lia. destruct C as [-> | [-> | ->]]; injection Hp as <-; destruct rest; discriminate.
Qed.

(** Steps of a quarter of an hour: half an hour after the refresh the second slot is used
    instead of the fourth. *)
Theorem C176_quarter_hours_refuted : exists c types s0 s s' pdf, proper c /\ d_step (c_data c) = minutes 15 /\ new c = Ok (types, s0) /\
  daily_run (c_data c) (c_labels c) types (repeat one_in 2) s0 = Ok s /\ daily_step (c_data c) (c_labels c) types one_in s = Ok s' /\
  y_current (user s') = Some pdf /\ ~ in_force (c_data c) (minutes 15) (c_subs c) (c_labels c) (now s) pdf.
Proof.
  exists (const_setup (minutes 15) friday). destruct (second_refutes (minutes 15) 2) as (types & s0 & s & s' & pdf & H); [vm_compute; reflexivity|unfold minutes, us_per_day; lia|vm_compute; discriminate|].
  exists types, s0, s, s', pdf. split; [apply const_proper|]. split; [reflexivity|exact H].
Qed.

(** Steps of half a minute: the second slot is used already 30 seconds after the refresh. *)
Theorem C176_half_minutes_refuted : exists c types s0 s s' pdf, proper c /\ d_step (c_data c) = 30000000 /\ new c = Ok (types, s0) /\
  daily_run (c_data c) (c_labels c) types (repeat one_in 1) s0 = Ok s /\ daily_step (c_data c) (c_labels c) types one_in s = Ok s' /\
  y_current (user s') = Some pdf /\ ~ in_force (c_data c) 30000000 (c_subs c) (c_labels c) (now s) pdf.
Proof.
  exists (const_setup 30000000 friday). destruct (second_refutes 30000000 1) as (types & s0 & s & s' & pdf & H); [vm_compute; reflexivity|unfold us_per_day; lia|vm_compute; discriminate|].
  exists types, s0, s, s', pdf. split; [apply const_proper|]. split; [reflexivity|exact H].
Qed.

(** A start five minutes after the refresh with steps of ten minutes: the constructor
    accepts it, the first step raises AttributeError. *)
Definition no_profile (c : setup) : bool :=
  match new c with
  | Ok (types, s0) => match daily_step (c_data c) (c_labels c) types one_in s0 with Err AttributeError => true | _ => false end
  | Err _ => false
  end.

Theorem C176_offset_refuted : exists c types s0, proper c /\ d_step (c_data c) = minutes 10 /\ c_start c = friday + minutes 5 /\ new c = Ok (types, s0) /\
  daily_step (c_data c) (c_labels c) types one_in s0 = Err AttributeError.
Proof.
  exists (const_setup (minutes 10) (friday + minutes 5)). assert (E : no_profile (const_setup (minutes 10) (friday + minutes 5)) = true) by (vm_compute; reflexivity).
  unfold no_profile in E. destruct (new _) as [[types s0]|] eqn:E0; [|discriminate]. exists types, s0. split; [apply const_proper|]. repeat (split; [reflexivity|]).
  destruct (daily_step _ _ _ _ s0) as [|e]; [discriminate|]. f_equal. clear - E. destruct e; congruence.
Qed.

(** ** C177: own activity *)

(** The labels are the related activities, each once, and the inverse leads every
    appliance to its own. *)
Theorem C177_labels : forall related, NoDup (activities_labels related) /\ (forall x, In x (activities_labels related) <-> In x related) /\
  forall j rel, at_ related j rel -> exists k, at_ (activities_inverse related) j k /\ at_ (activities_labels related) k rel.
Proof.
  intro related. split; [apply uniq_nodup; exact string_order|]. split; [intro x; apply uniq_in; exact string_order|]. apply label_at.
Qed.

Section Own.
  Variables (c : setup) (types : list nat) (s0 : tsim daily) (l : list step_in) (s : tsim daily) (i : step_in) (s' : tsim daily).
  Hypothesis P : proper c.
  Hypothesis Al : c_aligned c.
  Hypothesis N : new c = Ok (types, s0).
  Hypothesis R : daily_run (c_data c) (c_labels c) types l s0 = Ok s.
  Hypothesis Fl : forall k, In k l -> fair k.
  Hypothesis H : daily_step (c_data c) (c_labels c) types i s = Ok s'.
  Variables (h j k : nat) (v : view) (g : subgroup) (rel : string) (a : app).
  Hypothesis V : sees (y_app (user s)) h j v.
  Hypothesis Th : at_ types h k.
  Hypothesis Gk : at_ (c_subs c) k g.
  Hypothesis Rj : at_ (c_related c) j rel.
  Hypothesis Aj : at_ (c_apps c) j a.

  Lemma own_parts : simulates (length types) (y_app (user s)) /\ ap_prob (v_app v) = ap_prob a /\ ap_off (v_app v) = ap_off a /\ at_ (c_labels c) (ap_act (v_app v)) rel.
  Proof.
    destruct P as (P1 & P2 & P3 & P4). destruct Al as (A1 & _ & _ & A4 & _).
    destruct (make_any _ _ _ _ _ _ _ _ _ _ _ _ _ _ _ _ P2 P3 P4 types s0 N A1 A4) as (_ & _ & _ & A & B & C).
    destruct (run_built _ _ _ _ _ _ _ _ Fl B R) as [B1 B2]. split; [exact B1|]. destruct V as (V1 & _). rewrite B2 in V1. exact (C j (v_app v) a rel V1 Aj Rj).
  Qed.
End Own.

(** An appliance that was off and is on started with the probability of its own activity
    in the household's own subgroup. *)
Theorem C177_only_if : forall c types s0 l s i s' h j k v g rel a, proper c -> c_aligned c -> new c = Ok (types, s0) ->
  daily_run (c_data c) (c_labels c) types l s0 = Ok s -> (forall k, In k l -> fair k) -> fair i -> daily_step (c_data c) (c_labels c) types i s = Ok s' ->
  sees (y_app (user s)) h j v -> at_ types h k -> at_ (c_subs c) k g -> at_ (c_related c) j rel -> at_ (c_apps c) j a ->
  at2 (get_current_usage (y_app (user s))) h j false -> at2 (get_current_usage (y_app (user s'))) h j true ->
  starts (c_data c) (d_step (c_data c)) (now s) g rel a i h j v.
Proof.
  intros c types s0 l s i s' h j k v g rel a P Al N R Fl Fi H V Th Gk Rj Aj U0 U1.
  destruct (own_parts c types s0 l s P Al N R Fl h j v rel a V Rj Aj) as (S & E1 & _ & E3).
  destruct (after_step c types s0 l s i s' P Al N R H) as (pdf & _ & F & _ & O & _).
  apply (may_starts (c_data c) (d_step (c_data c)) (now s) (c_subs c) (c_related c) pdf types i F h j k v g rel a Th Gk E1 E3).
  exact (start_only_if (length types) _ (OccIn pdf types (in_u i) (in_vol i) (in_vol2 i) (in_occ i)) _ h j v S Fi O V U0 U1).
Qed.

(** Under these conditions a cycle starts (unless nobody is active and the appliance is
    switched off then) ... *)
Theorem C177_if : forall c types s0 l s i s' h j k v g rel a, proper c -> c_aligned c -> content_only (c_data c) -> new c = Ok (types, s0) ->
  daily_run (c_data c) (c_labels c) types l s0 = Ok s -> (forall k, In k l -> fair k) -> fair i -> daily_step (c_data c) (c_labels c) types i s = Ok s' ->
  sees (y_app (user s)) h j v -> at_ types h k -> at_ (c_subs c) k g -> at_ (c_related c) j rel -> at_ (c_apps c) j a ->
  starts (c_data c) (d_step (c_data c)) (now s) g rel a i h j v -> ~ left_alone i h a ->
  exists d w, occ_cycle_length v (in_vol2 i h j) d /\ sees (y_app (user s')) h j w /\ same_static v w /\
    down_Q d (v_left w) /\ v_refresh w = down_Z (trunc (d + inject_Z (ap_delay (v_app v)))).
Proof.
  intros c types s0 l s i s' h j k v g rel a P Al Co N R Fl Fi H V Th Gk Rj Aj St La.
  destruct (own_parts c types s0 l s P Al N R Fl h j v rel a V Rj Aj) as (S & E1 & E2 & E3).
  destruct (after_step c types s0 l s i s' P Al N R H) as (pdf & _ & F & _ & O & _).
  refine (start_if (length types) _ (OccIn pdf types (in_u i) (in_vol i) (in_vol2 i) (in_occ i)) _ h j v S Fi O V _ _).
  - exact (starts_may (c_data c) (d_step (c_data c)) (now s) (c_subs c) (c_related c) pdf types i F (y_app (user s)) (y_app (user s')) h j k v g rel a O V Th Gk E1 E3 Co St).
  - intros [X Y]. apply La. split; [exact X|congruence].
Qed.

(** ... and otherwise the appliance goes on as before. *)
Theorem C177_otherwise : forall c types s0 l s i s' h j k v g rel a, proper c -> c_aligned c -> new c = Ok (types, s0) ->
  daily_run (c_data c) (c_labels c) types l s0 = Ok s -> (forall k, In k l -> fair k) -> fair i -> daily_step (c_data c) (c_labels c) types i s = Ok s' ->
  sees (y_app (user s)) h j v -> at_ types h k -> at_ (c_subs c) k g -> at_ (c_related c) j rel -> at_ (c_apps c) j a ->
  ~ starts (c_data c) (d_step (c_data c)) (now s) g rel a i h j v -> ~ left_alone i h a ->
  exists w, sees (y_app (user s')) h j w /\ same_static v w /\ down_Q (v_left v) (v_left w) /\ v_refresh w = down_Z (v_refresh v).
Proof.
  intros c types s0 l s i s' h j k v g rel a P Al N R Fl Fi H V Th Gk Rj Aj St La.
  destruct (own_parts c types s0 l s P Al N R Fl h j v rel a V Rj Aj) as (S & E1 & E2 & E3).
  destruct (after_step c types s0 l s i s' P Al N R H) as (pdf & _ & F & _ & O & _).
  destruct (no_start_frame (length types) _ (OccIn pdf types (in_u i) (in_vol i) (in_vol2 i) (in_occ i)) _ h j v S Fi O V) as (w & W1 & W2 & W3 & _).
  - intro M. apply St. exact (may_starts (c_data c) (d_step (c_data c)) (now s) (c_subs c) (c_related c) pdf types i F h j k v g rel a Th Gk E1 E3 M).
  - destruct W3 as [W3 W4]; [intros [X Y]; apply La; split; [exact X|congruence]|]. exists w. auto.
Qed.

(** For every step size and start, also where the slot is wrong: an appliance starts only
    with a probability of its own activity, for its household's own subgroup and present
    occupancy. *)
Theorem C177_always : forall c types s0 l s i s' h j k v g rel a, proper c -> 0 < d_step (c_data c) -> us_per_day <= c_start c -> 0 <= d_refresh (c_data c) < us_per_day ->
  new c = Ok (types, s0) -> daily_run (c_data c) (c_labels c) types l s0 = Ok s -> (forall k, In k l -> fair k) -> fair i -> daily_step (c_data c) (c_labels c) types i s = Ok s' ->
  sees (y_app (user s)) h j v -> at_ types h k -> at_ (c_subs c) k g -> at_ (c_related c) j rel -> at_ (c_apps c) j a ->
  at2 (get_current_usage (y_app (user s))) h j false -> at2 (get_current_usage (y_app (user s'))) h j true ->
  v_own v = true /\ (v_left v <= 0)%Q /\ v_refresh v <= 0 /\
  exists n by_occ q, at_ (in_occ i) h n /\ 0 <= n /\ some_slot (c_data c) g rel by_occ /\ at_ by_occ (Z.to_nat n) q /\ (in_u i h j < ap_prob a * q)%Q.
Proof.
  intros c types s0 l s i s' h j k v g rel a P Hd Hs Hr N R Fl Fi H V Th Gk Rj Aj U0 U1.
  pose proof (feeds_run _ _ types _ l s0 s (make_feeds c types s0 P Hd Hs Hr N) R) as (F1 & F2 & F3 & F4).
  destruct (fed_step _ _ types _ i s s' F1 F2 F3 F4 H) as (_ & pdf & [_ K] & O). destruct P as (P1 & P2 & P3 & P4).
  destruct (make_any _ _ _ _ _ _ _ _ _ _ _ _ _ _ _ _ P2 P3 P4 types s0 N Hd Hr) as (_ & _ & _ & A & B & C).
  destruct (run_built _ _ _ _ _ _ _ _ Fl B R) as [B1 B2]. destruct (C j (v_app v) a rel ltac:(destruct V as (V1 & _); rewrite <- B2; exact V1) Aj Rj) as (C1 & _ & C3).
  destruct (start_only_if (length types) _ (OccIn pdf types (in_u i) (in_vol i) (in_vol2 i) (in_occ i)) _ h j v B1 Fi O V U0 U1) as (M1 & M2 & M3 & q & (k' & n & acts & bo & H1 & H2 & H3 & H4 & H5 & H6) & Lt).
  cbn [i_types i_occ i_pdf i_u] in *. assert (k' = k) by (unfold at_ in *; congruence). subst k'. repeat (split; [assumption|]). destruct (K k g acts Gk H4) as [_ K2].
  exists n, bo, q. repeat (split; [assumption|]). split; [eapply K2; eauto|]. split; [exact H6|]. rewrite <- C1. exact Lt.
Qed.

(** A related activity that the data of some subgroup lacks is reported at creation. *)
Theorem C177_missing : forall c types owned a k g rel, proper c -> 0 <= c_start c -> (forall dt, c_step c = Some dt -> dt = d_step (c_data c)) ->
  parse_subgroups [] (Z.to_nat (zsum (c_counts c))) (Some (c_subs c)) (Some (c_counts c)) = Ok (c_subs c, types) -> c_own c types = Ok owned ->
  make_occupancy_appliances (map2 set_act (c_apps c) (activities_inverse (c_related c))) (c_related c) owned (c_algo c) (c_switched c) (c_full c) (c_pick1 c) (c_pick2 c) (c_wait c) = Ok a ->
  (forall g g', In g (c_subs c) -> dated g (c_start c) g' -> exists d, d_load (c_data c) g' = Ok d) ->
  at_ (c_subs c) k g -> In rel (c_related c) -> (forall g' d, dated g (c_start c) g' -> d_load (c_data c) g' = Ok d -> dget String.eqb d rel = None) ->
  new c = Err ValueError.
Proof.
  intros c types owned a k g rel (P1 & P2 & P3 & P4) Ht Hs E0 E1 E2 Hl Hk Hr Hm. unfold new, make_daily. rewrite E0. cbn [bind].
  replace (match c_step c with Some s => s | None => d_step (c_data c) end) with (d_step (c_data c)) by (destruct (c_step c) as [x|]; [symmetry; apply Hs; reflexivity|reflexivity]).
  rewrite Z.eqb_refl. cbn [negb]. rewrite E1. cbn [bind]. rewrite E2. cbn [bind]. unfold start_daily.
  destruct (update_total (c_start c) (Daily (c_subs c) [] 0 None a)) as [u1 Eu]. rewrite Eu. cbn [bind].
  assert (Or : origin (c_subs c) (c_subs c)).
  { split; [reflexivity|]. intros x y y' A B. unfold at_ in *. assert (y' = y) by congruence. subst y'. split; [apply (P1 x); exact A|]. intros key _ _ z. tauto. }
  destruct (update_ok (c_subs c) (c_start c) (Daily (c_subs c) [] 0 None a) u1 Ht Or Eu) as ([L A] & _).
  assert (Lk : (k < length (y_groups u1))%nat) by (rewrite L; eapply at_lt; exact Hk). destruct (lt_at _ _ _ Lk) as [g' Hg'].
  destruct (Hl g g' (at_in _ _ _ _ Hk) (A k g g' Hk Hg')) as [d Ed].
  rewrite (set_pdf_missing (c_data c) (activities_labels (c_related c)) u1 k g' d rel); [reflexivity| |exact Hg'|exact Ed| |].
  - intros x Hx. apply in_at in Hx. destruct Hx as [n Hn]. assert (Ln : (n < length (c_subs c))%nat) by (rewrite <- L; eapply at_lt; exact Hn).
    destruct (lt_at _ _ _ Ln) as [y Hy]. apply (Hl y x (at_in _ _ _ _ Hy)). apply (A n); assumption.
  - apply uniq_in; [exact string_order|exact Hr].
  - apply (Hm g' d); [apply (A k); assumption|exact Ed].
Qed.

(** Profiles of different shapes are refused. *)
Theorem C177_ragged : forall D labels u p q,
  (forall g, In g (y_groups u) -> exists d, d_load D g = Ok d /\ forall lab, In lab labels -> exists r, dget String.eqb d lab = Some r) ->
  tabled D labels u p -> tabled D labels u q -> length p <> length q \/ (exists r r', In r p /\ In r' q /\ length r <> length r') ->
  set_activity_pdf D labels u = Err ValueError.
Proof. exact set_pdf_ragged. Qed.

(** Both start with a number below 1/2 x 1/6 for the oven; the television needs a number
    below 1/10. *)
Example C177_example :
  let c := ex_setup (minutes 1420) (minutes 10) (friday + minutes 1430) houses in
  let i := StepIn (fun h j => if Nat.eqb j 1 then (if Nat.eqb h 0 then 1 # 11 else 1 # 13) else 1 # 11)%Q (fun _ _ => 0%nat) (fun _ _ => 0%nat) [1; 1] in
  match new c with
  | Ok (types, s) => match daily_run (c_data c) (c_labels c) types [ex_in; ex_in; i] s with Ok s' => get_current_usage (y_app (user s')) | Err _ => [] end
  | Err _ => []
  end = [[true; false]; [true; true]].
Proof. vm_compute. reflexivity. Qed.

Example C177_missing_example :
  new (Setup (ex_data 0 (minutes 10)) None friday houses [1; 1] [telly; oven] ["tv"%string; "iron"%string] (fun types => Ok (map (fun _ => [true; true]) types))
    Nothing (Ok []) (Ok []) (fun _ _ => 0%nat) (fun _ _ => 0%nat) (fun _ _ => 0) None (fun _ => ex_in)) = Err ValueError.
Proof. vm_compute. reflexivity. Qed.

(** ** C178: day type *)

(** After every step the subgroups carry the day type of the last refresh (the instant
    one step after it), no quarter, and the user's other attributes. *)
Theorem C178_day_type_partial : forall c types s0 l s i s', proper c -> c_aligned c -> new c = Ok (types, s0) ->
  daily_run (c_data c) (c_labels c) types l s0 = Ok s -> daily_step (c_data c) (c_labels c) types i s = Ok s' ->
  exists R, latest_occurrence (d_refresh (c_data c)) (now s) R /\ length (y_groups (user s')) = length (c_subs c) /\
    forall k g g', at_ (c_subs c) k g -> at_ (y_groups (user s')) k g' -> dated g (R + d_step (c_data c)) g'.
Proof.
  intros c types s0 l s i s' P Al N R H. destruct (after_step c types s0 l s i s' P Al N R H) as (pdf & _ & _ & _ & _ & Rf & L & [D1 D2]). exists Rf. auto.
Qed.

(** Other attributes never change, in any run. *)
Theorem C178_other_attributes : forall c types s0 l s k g g' key, proper c -> 0 < d_step (c_data c) -> us_per_day <= c_start c -> 0 <= d_refresh (c_data c) < us_per_day ->
  new c = Ok (types, s0) -> daily_run (c_data c) (c_labels c) types l s0 = Ok s -> at_ (c_subs c) k g -> at_ (y_groups (user s)) k g' ->
  key <> "weekday"%string -> key <> "quarter"%string -> agree g' g key.
Proof.
  intros c types s0 l s k g g' key (P1 & P2 & P3 & P4) Hd Hs Hr N R Hg Hg' K1 K2.
  destruct (make_feeds c types s0 ltac:(split; auto) Hd Hs Hr N) as (M1 & M2 & O & _). destruct (run_origin _ _ _ (c_subs c) l s0 s M1 M2 O R) as [_ F].
  apply (F k g g' Hg Hg'). exact K1. exact K2.
Qed.

(** A user's own day type and quarter are not kept: subgroups for the week end of the
    third quarter become week days without a quarter, and the profiles are those of the
    week. *)
Definition own_day : list subgroup := [[("weekday"%string, VInts [6; 7]); ("quarter"%string, VInt 3)]; [("n_residents"%string, VInt 2)]].
Theorem C178_own_day_refuted : exists c types s0, c_subs c = own_day /\ new c = Ok (types, s0) /\
  at_ (y_groups (user s0)) 0 [("weekday"%string, VInts [1; 2; 3; 4; 5])].
Proof.
  exists (ex_setup 0 (minutes 10) friday own_day).
  assert (E : match new (ex_setup 0 (minutes 10) friday own_day) with
              | Ok (_, s) => match y_groups (user s) with [(k, v)] :: _ => String.eqb k "weekday" && value_eqb v week | _ => false end | Err _ => false end = true) by (vm_compute; reflexivity).
  destruct (new _) as [[types s0]|]; [|discriminate]. exists types, s0. split; [reflexivity|]. split; [reflexivity|].
  destruct (y_groups (user s0)) as [|[|[k v] [|]] rest]; try discriminate. apply andb_true_iff in E. destruct E as [E1 E2]. apply String.eqb_eq in E1. subst k.
  destruct v as [|m]; [discriminate|]. unfold value_eqb, week in E2. destruct (list_eq_dec Z.eq_dec m [1; 2; 3; 4; 5]); [subst m; reflexivity|discriminate].
Qed.

(** Refresh at 23:50 with steps of ten minutes: the instant one step later is on Saturday,
    so that the week end begins then. *)
Example C178_example :
  let c := ex_setup (minutes 1430) (minutes 10) (friday + minutes 1420) houses in
  match new c with
  | Ok (types, s) =>
      match daily_run (c_data c) (c_labels c) types (repeat ex_in 2) s with
      | Ok s' => (y_groups (user s'), y_current (user s'))
      | Err _ => ([], None)
      end
  | Err _ => ([], None)
  end = ([[("n_residents"%string, VInt 1); ("weekday"%string, VInts [6; 7])]; [("n_residents"%string, VInt 2); ("weekday"%string, VInts [6; 7])]],
         Some [[[0; 1 # 4]; [0; 3 # 4]]; [[0; 1 # 4]; [0; 3 # 4]]]%Q).
Proof. vm_compute. reflexivity. Qed.

(** ** C179: a new simulator *)

(** At the start time, after the whole steps since the last refresh, with arrays of the
    size of the population. *)
Theorem C179_new : forall c types s, proper c -> 0 < d_step (c_data c) -> 0 <= d_refresh (c_data c) < us_per_day -> new c = Ok (types, s) ->
  now s = c_start c /\ step_size s = d_step (c_data c) /\
  (exists R, latest_occurrence (d_refresh (c_data c)) (c_start c) R /\ whole_steps (d_step (c_data c)) R (c_start c) (Time_Model.ticks s)) /\
  simulates (length types) (y_app (user s)) /\ length types = Z.to_nat (total_Z (c_counts c)).
Proof.
  intros c types s (P1 & P2 & P3 & P4) Hd Hr N. destruct (make_any _ _ _ _ _ _ _ _ _ _ _ _ _ _ _ _ P2 P3 P4 types s N Hd Hr) as (N1 & N2 & N3 & A & [B _] & _).
  repeat (split; [assumption|]). destruct (make_parts _ _ _ _ _ _ _ _ _ _ _ _ _ _ _ _ types s N) as (E & _).
  destruct (parse_ok _ _ _ _ _ _ _ E) as (_ & _ & Fc & ->). rewrite <- (numbered_length _ 0 Fc). symmetry. apply Nat2Z.id.
Qed.

(** Another step size than that of the data. *)
Theorem C179_step_size : forall c dt, c_step c = Some dt -> dt <> d_step (c_data c) -> forall r, new c <> Ok r.
Proof.
  intros c dt E Nd [types s] N. destruct (make_parts _ _ _ _ _ _ _ _ _ _ _ _ _ _ _ _ types s N) as (_ & X & _). apply Nd, X, E.
Qed.

(** An initial occupancy of another length, if there are initialization steps. *)
Theorem C179_occupancy : forall c o types s, proper c -> 0 < d_step (c_data c) -> 0 <= d_refresh (c_data c) < us_per_day -> new c = Ok (types, s) -> c_occ c = Some o ->
  length o = length types \/ Time_Model.ticks s = 0.
Proof.
  intros c o types s P Hd Hr N Eo. destruct (make_parts _ _ _ _ _ _ _ _ _ _ _ _ _ _ _ _ types s N) as (_ & _ & owned & a & u1 & u2 & _ & _ & _ & _ & E5). rewrite Eo in E5.
  unfold t_initialize in E5. destruct (init_datetime _ _) as [d|] eqn:Ed; [|discriminate]. cbn [bind] in E5. cbv zeta in E5. destruct (_ =? 0); [discriminate|]. destruct (_ <? 0); [discriminate|].
  set (n := Z.to_nat _) in E5. destruct n as [|n]; cbn [iterate] in E5; [injection E5 as <-; right; reflexivity|left].
  destruct (daily_step _ _ _ _ _) as [s1|] eqn:E1 in E5; [|discriminate]. destruct (step_any _ _ _ _ _ _ E1) as (_ & pdf & u & _ & L & _). exact L.
Qed.

(** Start at 00:30 with refresh at 00:05: two whole steps, from 00:10 on.  With refresh at
    midnight and a start at 00:25 the first of the two steps is at 00:05, before any
    profile is set. *)
Example C179_example :
  match new (ex_setup (minutes 5) (minutes 10) (friday + minutes 30) houses) with
  | Ok (types, s) => Some (types, now s - friday, Time_Model.ticks s, get_current_usage (y_app (user s)))
  | Err _ => None
  end = Some ([0; 1]%nat, minutes 30, 2, [[false; false]; [false; false]]) /\
  new (ex_setup 0 (minutes 10) (friday + minutes 25) houses) = Err AttributeError.
Proof. vm_compute. auto. Qed.

(** Three occupancies for two households: accepted when the start is a refresh time,
    rejected ten minutes later. *)
Example C179_occupancy_example :
  let c := fun start => Setup (ex_data 0 (minutes 10)) (Some (minutes 10)) start houses [1; 1] [telly; oven] ["tv"%string; "cook"%string] (fun types => Ok (map (fun _ => [true; true]) types))
    Nothing (Ok []) (Ok []) (fun _ _ => 0%nat) (fun _ _ => 0%nat) (fun _ _ => 0) (Some [1; 0; 2]) (fun _ => ex_in) in
  (match new (c friday) with Ok (types, _) => types | Err _ => [] end) = [0; 1]%nat /\ new (c (friday + minutes 10)) = Err AssertionError.
Proof. vm_compute. auto. Qed.

Print Assumptions C176_slot_partial.
Print Assumptions C176_start_free_partial.
Print Assumptions C176_errors.
Print Assumptions C176_never_refreshed.
Print Assumptions C176_quarter_hours_refuted.
Print Assumptions C176_half_minutes_refuted.
Print Assumptions C176_offset_refuted.
Print Assumptions C177_labels.
Print Assumptions C177_only_if.
Print Assumptions C177_if.
Print Assumptions C177_otherwise.
Print Assumptions C177_always.
Print Assumptions C177_missing.
Print Assumptions C177_ragged.
Print Assumptions C178_day_type_partial.
Print Assumptions C178_other_attributes.
Print Assumptions C178_own_day_refuted.
Print Assumptions C179_new.
Print Assumptions C179_step_size.
Print Assumptions C179_occupancy.
